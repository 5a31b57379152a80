(** Streebog: the table-driven core of every build computes the standard's functions, and the
    update functions compute the standard's iteration. *)
From Verif Require Import Bytes BytesProofs Gost89SpecProofs CryptModel CryptProofs BlockLoop
  StreebogTables StreebogModel StreebogSpec.

(** ** Words and bytes *)
Lemma n2le_lxor n a b : n2le n (N.lxor a b) = xorl (n2le n a) (n2le n b).
Proof.
  revert a b. induction n as [|n IH]; intros a b; [reflexivity|]. cbn [n2le xorl]. rewrite N.shiftr_lxor, IH. f_equal.
  unfold w8. apply N.bits_inj. intro k. rewrite !N.land_spec, !N.lxor_spec, !N.land_spec.
  destruct (N.testbit a k), (N.testbit b k), (N.testbit 255 k); reflexivity.
Qed.
Lemma xorl_rev a b : length a = length b -> xorl (rev a) (rev b) = rev (xorl a b).
Proof.
  revert b. induction a as [|x a IH]; intros [|y b] E; try discriminate; [reflexivity|].
  simpl in E. cbn [rev xorl]. rewrite xorl_app by (rewrite !rev_length; lia). rewrite IH by lia. reflexivity.
Qed.
Lemma n2be_lxor n a b : n2be n (N.lxor a b) = xorl (n2be n a) (n2be n b).
Proof. unfold n2be. rewrite n2le_lxor, xorl_rev; [reflexivity|rewrite !n2le_length; reflexivity]. Qed.
Lemma pow256_pow2 n : 256 ^ n = 2 ^ (8 * n).
Proof. change 256 with (2 ^ 8). rewrite <- N.pow_mul_r. reflexivity. Qed.
Lemma le2n_xorl a b : bytes a -> bytes b -> length a = length b -> le2n (xorl a b) = N.lxor (le2n a) (le2n b).
Proof.
  intros Ba Bb L. rewrite <- (n2le_le2n a (length a) Ba eq_refl) at 1.
  rewrite <- (n2le_le2n b (length a) Bb) at 1 by auto. rewrite <- n2le_lxor. apply le2n_n2le_small.
  rewrite pow256_pow2. apply lxor_lt_pow2; rewrite <- pow256_pow2; [apply le2n_lt; auto|rewrite L; apply le2n_lt; auto].
Qed.
Lemma be2n_xorl a b : bytes a -> bytes b -> length a = length b -> be2n (xorl a b) = N.lxor (be2n a) (be2n b).
Proof.
  intros. unfold be2n. rewrite <- xorl_rev by auto. apply le2n_xorl; try apply bytes_rev; auto. rewrite !rev_length; auto.
Qed.
Lemma le2n_nth_byte w : bytes w -> forall i, N.land (N.shiftr (le2n w) (8 * N.of_nat i)) 0xff = nth i w 0.
Proof.
  intros B. induction B as [|b w Hb B IH]; intros i.
  - cbn [le2n]. rewrite N.shiftr_0_l. destruct i; reflexivity.
  - cbn [le2n]. destruct i as [|i].
    + change (N.of_nat 0) with 0. rewrite N.mul_0_r, N.shiftr_0_r. change 255 with (N.ones 8). rewrite N.land_ones.
      change (2 ^ 8) with 256. rewrite N.mul_comm, N.mod_add by discriminate. apply N.mod_small. exact Hb.
    + cbn [nth]. rewrite <- IH. replace (8 * N.of_nat (S i)) with (8 + 8 * N.of_nat i) by lia.
      rewrite <- N.shiftr_shiftr. f_equal. f_equal. rewrite shiftr8. rewrite N.mul_comm, N.div_add by discriminate.
      rewrite (N.div_small b 256 Hb). reflexivity.
Qed.
Lemma be2n_nth_byte w i : bytes w -> (i < length w)%nat ->
  N.land (N.shiftr (be2n w) (8 * N.of_nat i)) 0xff = nth (length w - 1 - i) w 0.
Proof.
  intros B L. unfold be2n. rewrite le2n_nth_byte by (apply bytes_rev; auto). rewrite rev_nth by auto. f_equal. lia.
Qed.

(** ** Blocks of eight *)
Definition blk64 (b : list N) := length b = 64%nat /\ bytes b.
Lemma blk64_xorl a b : blk64 a -> blk64 b -> blk64 (xorl a b).
Proof. intros [A1 A2] [B1 B2]. split; [rewrite xorl_length_eq; congruence|apply xorl_bytes; auto]. Qed.
Lemma blk64_zeros : blk64 (zeros 64). Proof. split; [reflexivity|apply bytes_zeros]. Qed.

Lemma blocks_xorl n a b : (0 < n)%nat -> length a = length b ->
  blocks n (xorl a b) = map (fun p => xorl (fst p) (snd p)) (combine (blocks n a) (blocks n b)).
Proof.
  intros Hn. remember (length a) as k eqn:Ek. revert a b Ek. induction k as [k IH] using lt_wf_ind. intros a b Ek L.
  destruct a as [|x a'].
  - destruct b; [reflexivity|cbn [length] in *; lia].
  - destruct b as [|y b']; [cbn [length] in *; lia|]. set (a := x :: a') in *. set (b := y :: b') in *.
    rewrite (blocks_step n a), (blocks_step n b), (blocks_step n (xorl a b)) by (auto; discriminate). cbn [combine map fst snd]. rewrite xorl_firstn. f_equal.
    assert (SL : (length (skipn n a) < k)%nat) by (rewrite skipn_length; subst k a; cbn [length]; lia).
    rewrite <- (IH _ SL _ (skipn n b) eq_refl) by (rewrite !skipn_length; lia). rewrite xorl_skipn. reflexivity.
Qed.
Lemma blocks_map_concat {A} n (f : A -> list N) (l : list A) : (0 < n)%nat -> (forall x, length (f x) = n) ->
  blocks n (flat_map f l) = map f l.
Proof.
  intros Hn Hf. induction l as [|x l IH]; [reflexivity|]. cbn [flat_map map]. rewrite blocks_cons; auto. congruence.
Qed.
Lemma flat_map_map {A B C} (f : B -> list C) (g : A -> B) l : flat_map f (map g l) = flat_map (fun x => f (g x)) l.
Proof. induction l; cbn; congruence. Qed.
Lemma flat_map_id_blocks f n l : (0 < n)%nat -> (forall b, In b (blocks n l) -> f b = b) -> flat_map f (blocks n l) = l.
Proof.
  intros Hn Hf. rewrite flat_map_concat_map. rewrite (map_ext_in f (fun b => b)) by auto. rewrite map_id. apply concat_blocks; auto.
Qed.

Lemma blocks8_in l b : (length l mod 8 = 0)%nat -> bytes l -> In b (blocks 8 l) -> length b = 8%nat /\ bytes b.
Proof.
  intros L B I. pose proof (blocks_all_full 8 l ltac:(lia) L) as F1. pose proof (blocks_bytes 8 l ltac:(lia) B) as F2.
  rewrite Forall_forall in F1, F2. auto.
Qed.
Lemma store_load bd b : (length b mod 8 = 0)%nat -> bytes b -> store bd (load bd b) = b.
Proof.
  intros L B. unfold store, load. rewrite flat_map_map. apply flat_map_id_blocks; [lia|].
  intros w Hw. destruct (blocks8_in b w L B Hw) as [Lw Bw]. destruct bd; (apply n2le_le2n || apply n2be_be2n); auto.
Qed.

Definition lde (bd : build) : list N -> N := match bd with RefBE => be2n | _ => le2n end.
Lemma lde_xorl bd a b : bytes a -> bytes b -> length a = length b -> lde bd (xorl a b) = N.lxor (lde bd a) (lde bd b).
Proof. destruct bd; (apply le2n_xorl || apply be2n_xorl). Qed.
Lemma load_lde bd b : load bd b = map (lde bd) (blocks 8 b). Proof. destruct bd; reflexivity. Qed.
Lemma load_xorl bd a b : blk64 a -> blk64 b -> load bd (xorl a b) = xorl (load bd a) (load bd b).
Proof.
  intros [La Ba] [Lb Bb]. rewrite !load_lde, blocks_xorl by (try lia; congruence). rewrite map_map.
  assert (Ma : forall w, In w (blocks 8 a) -> length w = 8%nat /\ bytes w) by (intros w Hw; apply (blocks8_in a); auto; rewrite La; reflexivity).
  assert (Mb : forall w, In w (blocks 8 b) -> length w = 8%nat /\ bytes w) by (intros w Hw; apply (blocks8_in b); auto; rewrite Lb; reflexivity).
  generalize dependent (blocks 8 b). generalize dependent (blocks 8 a). clear.
  induction l as [|x l IH]; intros Ma l' Mb; [reflexivity|]. destruct l' as [|y l']; [reflexivity|].
  cbn [combine map xorl fst snd]. f_equal.
  - apply lde_xorl; [apply Ma; left; auto|apply Mb; left; auto|].
    rewrite (proj1 (Ma x (or_introl eq_refl))), (proj1 (Mb y (or_introl eq_refl))). reflexivity.
  - apply IH; intros; [apply Ma|apply Mb]; right; auto.
Qed.

Lemma blocks8_explicit a : length a = 64%nat -> blocks 8 a = map (fun j => sub (8 * j) 8 a) (seq 0 8).
Proof.
  intros L. do 64 (destruct a as [|? a]; [discriminate L|]). destruct a; [|discriminate L]. reflexivity.
Qed.
Lemma load_nth bd a j : length a = 64%nat -> (j < 8)%nat -> nth j (load bd a) 0 = lde bd (sub (8 * j) 8 a).
Proof.
  intros L Hj. rewrite load_lde, blocks8_explicit, map_map by auto.
  do 8 (destruct j as [|j]; [reflexivity|]). lia.
Qed.
Lemma sub_nth off n l i : (i < n)%nat -> nth i (sub off n l) 0 = nth (off + i) l 0.
Proof.
  intros Hi. unfold sub. revert l. induction off as [|off IH]; intros l.
  - cbn [skipn Nat.add]. revert i Hi l. induction n as [|n IHn]; intros i Hi l; [lia|].
    destruct l as [|x l]; [destruct i; reflexivity|]. destruct i; [reflexivity|]. cbn [firstn nth]. apply IHn. lia.
  - destruct l as [|x l]; [rewrite skipn_nil, firstn_nil; destruct i; reflexivity|]. cbn [skipn Nat.add nth]. apply IH.
Qed.
Lemma rbyte_le a j i : blk64 a -> (j < 8)%nat -> (i < 8)%nat -> rbyte (load RefLE a) j (N.of_nat i) = nth (8 * j + i) a 0.
Proof.
  intros [L B] Hj Hi. unfold rbyte. rewrite load_nth by auto. cbn [lde]. rewrite le2n_nth_byte by (apply bytes_sub; auto).
  apply sub_nth; auto.
Qed.
Lemma rbyte_be a j i : blk64 a -> (j < 8)%nat -> (i < 8)%nat -> rbyte (load RefBE a) j (N.of_nat i) = nth (8 * j + (7 - i)) a 0.
Proof.
  intros [L B] Hj Hi. unfold rbyte. rewrite load_nth by auto. cbn [lde].
  assert (LS : length (sub (8 * j) 8 a) = 8%nat) by (apply sub_length; lia).
  rewrite be2n_nth_byte by (try apply bytes_sub; auto; lia). rewrite LS. rewrite sub_nth by lia. f_equal.
Qed.

(** ** The linear map l *)
Lemma mul_rows_lxor rows x y : mul_rows rows (N.lxor x y) = N.lxor (mul_rows rows x) (mul_rows rows y).
Proof.
  induction rows as [|r rows IH]; [reflexivity|]. cbn [mul_rows]. rewrite IH, N.lxor_spec.
  set (A := mul_rows rows x). set (B := mul_rows rows y).
  destruct (N.testbit x _), (N.testbit y _); cbn [xorb]; rewrite ?N.lxor_0_l.
  - apply N.bits_inj. intro k. rewrite !N.lxor_spec. destruct (N.testbit r k), (N.testbit A k), (N.testbit B k); reflexivity.
  - rewrite N.lxor_assoc. reflexivity.
  - rewrite (N.lxor_comm r (N.lxor A B)), N.lxor_assoc, (N.lxor_comm B r). reflexivity.
  - reflexivity.
Qed.
Lemma l_lxor x y : l (N.lxor x y) = N.lxor (l x) (l y). Proof. apply mul_rows_lxor. Qed.
Lemma l_0 : l 0 = 0. Proof. vm_compute. reflexivity. Qed.
Lemma mul_rows_lt rows x : Forall (fun r => r < 2 ^ 64) rows -> mul_rows rows x < 2 ^ 64.
Proof.
  induction 1 as [|r rows Hr F IH]; [reflexivity|]. cbn [mul_rows]. apply lxor_lt_pow2; auto.
  destruct (N.testbit _ _); [auto|reflexivity].
Qed.
Lemma l_lt x : l x < 2 ^ 64.
Proof. apply mul_rows_lt. apply Forall_forall. intros r Hr. assert (H : forallb (fun r => r <? 2 ^ 64) A_rows = true) by (vm_compute; reflexivity). rewrite forallb_forall in H. apply N.ltb_lt. auto. Qed.

Fixpoint xor_all (vs : list N) : N := match vs with nil => 0 | v :: t => N.lxor v (xor_all t) end.
Lemma fold_lxor vs : forall a, fold_left N.lxor vs a = N.lxor a (xor_all vs).
Proof. induction vs as [|v vs IH]; intros a; cbn [fold_left xor_all]; [rewrite N.lxor_0_r; reflexivity|]. rewrite IH, N.lxor_assoc. reflexivity. Qed.
Fixpoint l_bytes (k : nat) (ps : list N) : N :=
  match ps with nil => 0 | p :: t => N.lxor (l (N.shiftl p (8 * N.of_nat k))) (l_bytes (S k) t) end.
Lemma le2n_cons_lxor p t : p < 256 -> p + 256 * le2n t = N.lxor p (N.shiftl (le2n t) 8).
Proof.
  intros Hp. rewrite N.add_comm, N.mul_comm. change 256 with (2 ^ 8) at 1. rewrite <- lor_shiftl_add by exact Hp.
  rewrite N.lxor_comm. symmetry. apply N.lxor_lor. apply N.bits_inj. intro i. rewrite N.land_spec, N.bits_0.
  destruct (N.lt_ge_cases i 8).
  - rewrite N.shiftl_spec_low by auto. reflexivity.
  - rewrite (testbit_above 8 p i) by auto. apply Bool.andb_false_r.
Qed.
Lemma l_le2n ps : bytes ps -> forall k, l (N.shiftl (le2n ps) (8 * N.of_nat k)) = l_bytes k ps.
Proof.
  induction 1 as [|p ps Hp B IH]; intros k; cbn [le2n l_bytes].
  - rewrite N.shiftl_0_l. apply l_0.
  - rewrite le2n_cons_lxor by exact Hp. rewrite N.shiftl_lxor, l_lxor. f_equal. rewrite N.shiftl_shiftl.
    replace (8 + 8 * N.of_nat k) with (8 * N.of_nat (S k)) by lia. apply IH.
Qed.

(** ** Checks of the tables compiled into the library *)
Definition all256 : list N := map N.of_nat (seq 0 256).
Lemma all256_in b : b < 256 -> In b all256.
Proof. intros H. unfold all256. apply in_map_iff. exists (N.to_nat b). split; [lia|]. apply in_seq. lia. Qed.
Lemma forall_table (P : nat -> N -> bool) :
  forallb (fun j => forallb (P j) all256) (seq 0 8) = true ->
  forall j b, (j < 8)%nat -> b < 256 -> P j b = true.
Proof.
  intros H j b Hj Hb. rewrite forallb_forall in H. specialize (H j ltac:(apply in_seq; lia)).
  rewrite forallb_forall in H. apply H. apply all256_in; auto.
Qed.
Lemma Ax_is_l_pi j b : (j < 8)%nat -> b < 256 -> tbl Ax j b = l (N.shiftl (pi b) (8 * N.of_nat j)).
Proof.
  intros Hj Hb. apply N.eqb_eq.
  apply (forall_table (fun j b => tbl Ax j b =? l (N.shiftl (pi b) (8 * N.of_nat j)))); [vm_compute; reflexivity|exact Hj|exact Hb].
Qed.
Definition bsw (v : N) : N := be2n (n2le 8 v).
Lemma Ax_be_is_bsw j b : (j < 8)%nat -> b < 256 -> tbl Ax_be j b = bsw (tbl Ax j b).
Proof.
  intros Hj Hb. apply N.eqb_eq.
  apply (forall_table (fun j b => tbl Ax_be j b =? bsw (tbl Ax j b))); [vm_compute; reflexivity|exact Hj|exact Hb].
Qed.
Lemma pi_byte b : pi b < 256.
Proof.
  apply (bytes_nth pi_table). apply bytes_forallb. vm_compute. reflexivity.
Qed.
Lemma Ctab_consts bd i : (i < 12)%nat -> nth i (Ctab bd) nil = load bd (nth i C_consts nil).
Proof.
  intros Hi. do 12 (destruct i as [|i]; [destruct bd; vm_compute; reflexivity|]). lia.
Qed.
Lemma C_consts_blk64 : Forall blk64 C_consts.
Proof.
  apply Forall_forall. intros c Hc.
  assert (H : forallb (fun c => (length c =? 64)%nat && forallb (fun b => b <? 256) c) C_consts = true) by (vm_compute; reflexivity).
  rewrite forallb_forall in H. specialize (H c Hc). apply andb_prop in H as [H1 H2].
  split; [apply Nat.eqb_eq; exact H1|apply bytes_forallb; exact H2].
Qed.

(** ** XLPS *)
Definition col (a : list N) (i : nat) : list N := map (fun j => pi (nth (8 * j + i) a 0)) (seq 0 8).
Lemma blocks_PS a : length a = 64%nat -> blocks 8 (P_ (S_ a)) = map (col a) (seq 0 8).
Proof.
  intros L. do 64 (destruct a as [|? a]; [discriminate L|]). destruct a; [|discriminate L]. reflexivity.
Qed.
Lemma col_bytes a i : bytes (col a i).
Proof. unfold col. apply Forall_map, Forall_forall. intros. apply pi_byte. Qed.

Lemma xlps_le_word a i : blk64 a -> (i < 8)%nat -> xlps_qword Ax (load RefLE a) (N.of_nat i) = l (le2n (col a i)).
Proof.
  intros Ha Hi. unfold xlps_qword. cbn [fold_left].
  rewrite !rbyte_le by (auto; lia). rewrite !Ax_is_l_pi by (try lia; apply bytes_nth; apply Ha).
  pose proof (l_le2n (col a i) (col_bytes a i) 0) as E. change (8 * N.of_nat 0) with 0 in E. rewrite N.shiftl_0_r in E. rewrite E.
  unfold col. cbn [seq map l_bytes]. rewrite N.lxor_0_r. rewrite !N.lxor_assoc. reflexivity.
Qed.
Lemma bsw_lxor a b : bsw (N.lxor a b) = N.lxor (bsw a) (bsw b).
Proof. unfold bsw. rewrite n2le_lxor. apply be2n_xorl; try apply n2le_bytes. rewrite !n2le_length; reflexivity. Qed.
Lemma xlps_be_word a i : blk64 a -> (i < 8)%nat ->
  xlps_qword Ax_be (load RefBE a) (N.of_nat i) = bsw (l (le2n (col a (7 - i)))).
Proof.
  intros Ha Hi. rewrite <- xlps_le_word by (auto; lia). unfold xlps_qword. cbn [fold_left].
  rewrite !rbyte_be, !rbyte_le by (auto; lia). rewrite !Ax_be_is_bsw by (try lia; apply bytes_nth; apply Ha).
  rewrite <- !bsw_lxor. reflexivity.
Qed.

Lemma load_LPS_le a : blk64 a -> load RefLE (LPS a) = map (fun i => l (le2n (col a i))) (seq 0 8).
Proof.
  intros [L B]. unfold load, LPS, L_. rewrite blocks_map_concat by (try lia; intros; apply n2le_length).
  rewrite map_map, blocks_PS, map_map by auto. apply map_ext. intros i.
  apply le2n_n2le_small. apply l_lt.
Qed.
Lemma load_be_le b : (length b mod 8 = 0)%nat -> bytes b -> load RefBE b = map bsw (load RefLE b).
Proof.
  intros L B. unfold load. rewrite map_map. apply map_ext_in. intros w Hw. destruct (blocks8_in b w L B Hw).
  unfold bsw. rewrite n2le_le2n by auto. reflexivity.
Qed.
Lemma LPS_blk64 a : blk64 a -> blk64 (LPS a).
Proof.
  intros [L B]. unfold LPS, L_. rewrite blocks_PS by auto. split; [reflexivity|].
  cbn [seq map flat_map]. repeat apply bytes_app; try apply n2le_bytes. constructor.
Qed.

Lemma land_shr_ff v s t : N.land (N.shiftr (N.land (N.shiftr v s) 0xffff) t) 0xff = N.land (N.land (N.shiftr v (s + t)) (N.shiftr 0xffff t)) 0xff.
Proof. rewrite N.shiftr_land, N.shiftr_shiftr. reflexivity. Qed.
Lemma extract_lo lo hi k : LO (extract_epi16 lo hi k) = N.land (N.shiftr (if k <? 4 then lo else hi) (8 * (2 * (if k <? 4 then k else k - 4)))) 0xff.
Proof.
  unfold LO, extract_epi16. destruct (k <? 4); rewrite <- N.land_assoc; change (N.land 65535 255) with 255; do 2 f_equal; lia.
Qed.
Lemma extract_hi lo hi k : HI (extract_epi16 lo hi k) = N.land (N.shiftr (if k <? 4 then lo else hi) (8 * (2 * (if k <? 4 then k else k - 4) + 1))) 0xff.
Proof.
  unfold HI, extract_epi16. destruct (k <? 4); rewrite land_shr_ff, <- N.land_assoc; change (N.land (N.shiftr 65535 8) 255) with 255; do 2 f_equal; lia.
Qed.
Lemma XLPS_sse_le x y : XLPS_sse x y = XLPS_le x y.
Proof.
  unfold XLPS_sse, XLPS_le. generalize (xorl x y) as q. intros q. unfold EXTRACT, xlps_qword, idx8, rbyte.
  cbn [map fold_left app]. rewrite !extract_lo, !extract_hi. reflexivity.
Qed.

Lemma XLPS_spec bd x y : blk64 x -> blk64 y -> XLPS bd (load bd x) (load bd y) = load bd (LPS (xorl x y)).
Proof.
  intros Hx Hy. assert (Ha := blk64_xorl x y Hx Hy).
  assert (LE : XLPS_le (load RefLE x) (load RefLE y) = load RefLE (LPS (xorl x y))).
  { unfold XLPS_le. rewrite <- load_xorl by auto. set (a := xorl x y) in *. rewrite load_LPS_le by auto.
    change idx8 with (map N.of_nat (seq 0 8)). rewrite map_map. apply map_ext_in. intros i Hi. apply in_seq in Hi.
    apply xlps_le_word; auto. lia. }
  destruct bd; cbn [XLPS].
  - exact LE.
  - unfold XLPS_be. rewrite <- load_xorl by auto. set (a := xorl x y) in *.
    assert (LP := LPS_blk64 a Ha).
    rewrite (load_be_le (LPS a)); [|rewrite (proj1 LP); reflexivity|apply LP].
    rewrite load_LPS_le by auto. rewrite map_map.
    change idx8 with (map N.of_nat (seq 0 8)). rewrite map_map.
    rewrite (map_ext_in _ (fun i => bsw (l (le2n (col a (7 - i)))))).
    + reflexivity.
    + intros i Hi. apply in_seq in Hi. apply xlps_be_word; auto. lia.
  - rewrite XLPS_sse_le. exact LE.
Qed.
#[global] Opaque Ax Ax_be Cst Cst_be l LPS C_consts.

Lemma nth_C_blk64 i : (i < 12)%nat -> blk64 (nth i C_consts nil).
Proof.
  intros Hi. pose proof C_consts_blk64 as F. rewrite Forall_forall in F. apply F. apply nth_In.
  Transparent C_consts. exact Hi. 
Qed.
#[global] Opaque C_consts.
Lemma C_len : length C_consts = 12%nat. Proof. reflexivity. Qed.

(** The rounds in the order of the code: the data have already been xored with the round key and
    passed through LPS before the next key is derived. *)
Lemma E_iter_cons Cs K m : E_iter Cs K m = match Cs with nil => xorl K m | C :: t => E_iter t (LPS (xorl K C)) (LPS (xorl K m)) end.
Proof. destruct Cs; reflexivity. Qed.
Lemma skipn_C i : (i < 12)%nat -> skipn i C_consts = nth i C_consts nil :: skipn (S i) C_consts.
Proof.
  intros H. rewrite <- C_len in H. revert i H. induction C_consts as [|c cs IH]; intros i H; [simpl in H; lia|].
  destruct i; [reflexivity|]. cbn [skipn nth]. rewrite IH by (simpl in H; lia). reflexivity.
Qed.
Lemma rounds_spec bd n : forall i K d, (i + n <= 12)%nat -> blk64 K -> blk64 d ->
  exists K' d', rounds bd i n (load bd K, load bd d) = (load bd K', load bd d') /\ blk64 K' /\ blk64 d' /\
    (forall R, R = skipn (i + n) C_consts ->
     match R with nil => True | C :: t => E_iter t (LPS (xorl K' C)) d' =
       match skipn i C_consts with nil => nil | C0 :: t0 => E_iter t0 (LPS (xorl K C0)) d end end).
Proof.
  induction n as [|n IH]; intros i K d Hn HK Hd.
  - exists K, d. cbn [rounds]. split; [reflexivity|]. split; [auto|]. split; [auto|]. intros R ->. rewrite Nat.add_0_r.
    destruct (skipn i C_consts); auto.
  - cbn [rounds]. unfold ROUND at 1. rewrite Ctab_consts by lia.
    assert (HC := nth_C_blk64 i ltac:(lia)).
    rewrite XLPS_spec by auto. assert (HK1 : blk64 (LPS (xorl K (nth i C_consts nil)))) by (apply LPS_blk64, blk64_xorl; auto).
    rewrite XLPS_spec by auto. set (K1 := LPS _) in *.
    assert (Hd1 : blk64 (LPS (xorl K1 d))) by (apply LPS_blk64, blk64_xorl; auto).
    destruct (IH (S i) K1 (LPS (xorl K1 d)) ltac:(lia) HK1 Hd1) as (K' & d' & E1 & B1 & B2 & E2).
    exists K', d'. rewrite E1. split; [reflexivity|]. split; [auto|]. split; [auto|].
    intros R HR. replace (i + S n)%nat with (S i + n)%nat in HR by lia. specialize (E2 R HR).
    destruct R as [|C t]; [auto|]. rewrite E2. rewrite (skipn_C i) by lia. fold K1.
    destruct (skipn (S i) C_consts) eqn:ES.
    + exfalso. apply (f_equal (@length _)) in HR. rewrite skipn_length, C_len in HR. cbn [length] in HR.
      apply (f_equal (@length _)) in ES. rewrite skipn_length, C_len in ES. cbn [length] in ES. lia.
    + reflexivity.
Qed.

Lemma X_load bd a b : blk64 a -> blk64 b -> X (load bd a) (load bd b) = load bd (xorl a b).
Proof. intros. unfold X. symmetry. apply load_xorl; auto. Qed.

Lemma g_spec bd h n m : blk64 h -> blk64 n -> blk64 m -> g bd h n m = g_N n h m /\ blk64 (g_N n h m).
Proof.
  intros Hh Hn Hm. unfold g, g_N, E. rewrite XLPS_spec by auto.
  set (K := LPS (xorl h n)). assert (HK : blk64 K) by (apply LPS_blk64, blk64_xorl; auto).
  rewrite XLPS_spec by auto. assert (Hd : blk64 (LPS (xorl K m))) by (apply LPS_blk64, blk64_xorl; auto).
  destruct (rounds_spec bd 11 0 K (LPS (xorl K m)) ltac:(lia) HK Hd) as (K' & d' & E1 & B1 & B2 & E2).
  rewrite E1. rewrite Ctab_consts by lia. assert (HC := nth_C_blk64 11 ltac:(lia)).
  rewrite XLPS_spec by auto. assert (HK2 : blk64 (LPS (xorl K' (nth 11 C_consts nil)))) by (apply LPS_blk64, blk64_xorl; auto).
  set (K2 := LPS (xorl K' _)) in *.
  assert (B3 : blk64 (xorl K2 d')) by (apply blk64_xorl; auto).
  assert (B4 : blk64 (xorl (xorl K2 d') h)) by (apply blk64_xorl; auto).
  assert (B5 : blk64 (xorl (xorl (xorl K2 d') h) m)) by (apply blk64_xorl; auto).
  rewrite !X_load by auto. rewrite store_load; [|rewrite (proj1 B5); reflexivity|apply B5].
  assert (EE : E_iter C_consts K m = xorl K2 d').
  { specialize (E2 _ eq_refl). change (0 + 11)%nat with 11%nat in E2. rewrite (skipn_C 11) in E2 by lia.
    assert (S12 : skipn 12 C_consts = nil) by (apply skipn_all2; rewrite C_len; lia).
    rewrite S12 in E2. cbn [E_iter] in E2. fold K2 in E2. rewrite E2.
    pose proof (skipn_C 0 ltac:(lia)) as S0. cbn [skipn] in S0 |- *. rewrite S0. reflexivity. }
  rewrite EE. auto.
Qed.
#[global] Opaque g g_N.

(** ** add512 *)
Fixpoint qval (q : list N) : N := match q with nil => 0 | a :: t => a + 2 ^ 64 * qval t end.
Definition q64 (q : list N) := Forall (fun a => a < 2 ^ 64) q.
Lemma qval_lt q : q64 q -> qval q < 2 ^ (64 * N.of_nat (length q)).
Proof.
  induction 1 as [|a q Ha F IH]; [reflexivity|]. cbn [qval length]. rewrite Nat2N.inj_succ, N.mul_succ_r, N.pow_add_r.
  set (M := 2 ^ (64 * N.of_nat (length q))) in *. nia.
Qed.
Lemma n2le_split8 n x : n2le (8 + n) x = n2le 8 x ++ n2le n (x / 2 ^ 64).
Proof.
  change (8 + n)%nat with (S (S (S (S (S (S (S (S n)))))))). cbn [n2le app]. rewrite !N.shiftr_shiftr.
  do 8 f_equal. change (8 + 8 + 8 + 8 + 8 + 8 + 8 + 8) with 64. rewrite N.shiftr_div_pow2. reflexivity.
Qed.
Lemma store_qval q : q64 q -> store RefLE q = n2le (8 * length q) (qval q).
Proof.
  induction 1 as [|a q Ha F IH]; [reflexivity|]. cbn [store flat_map qval length].
  replace (8 * S (length q))%nat with (8 + 8 * length q)%nat by lia. rewrite n2le_split8. f_equal.
  - apply le2n_inj; try apply n2le_bytes; [rewrite !n2le_length; reflexivity|]. rewrite !le2n_n2le.
    change (256 ^ N.of_nat 8) with (2 ^ 64). rewrite N.mul_comm, N.mod_add by discriminate. reflexivity.
  - rewrite N.mul_comm, N.div_add by discriminate. rewrite (N.div_small a) by auto. exact IH.
Qed.
Lemma load_qval b : (length b mod 8 = 0)%nat -> bytes b -> qval (load RefLE b) = le2n b /\ q64 (load RefLE b) /\ (8 * length (load RefLE b) = length b)%nat.
Proof.
  intros L. revert b L. apply (whole_blocks_ind 8 (fun b => bytes b -> qval (load RefLE b) = le2n b /\ q64 (load RefLE b) /\ (8 * length (load RefLE b) = length b)%nat)); [lia|split; [reflexivity|split; [constructor|reflexivity]]|].
  intros a r La _ IH B. apply bytes_app_inv in B as [Ba Br]. destruct (IH Br) as (I1 & I2 & I3).
  unfold load in *. rewrite blocks_cons by (auto; lia). cbn [map qval length]. rewrite I1, le2n_app, La. split; [reflexivity|]. split.
  - constructor; auto. pose proof (le2n_lt a Ba) as X. rewrite La in X. exact X.
  - rewrite app_length. lia.
Qed.
Lemma add_carry_value a b c q : a < 2^64 -> b < 2^64 -> c <= 1 -> q = (a + b + c) / 2^64 -> a + b + c = w64 (a + b + c) + 2 ^ 64 * q.
Proof. intros Ha Hb Hc ->. rewrite w64_mod. change 18446744073709551616 with (2 ^ 64). pose proof (N.div_mod' (a + b + c) (2 ^ 64)). lia. Qed.
Lemma portable_carry a b c : a < 2^64 -> b < 2^64 -> c <= 1 ->
  (if w64 (a + b + c) =? a then c else if w64 (a + b + c) <? a then 1 else 0) = (a + b + c) / 2 ^ 64.
Proof.
  intros Ha Hb Hc. rewrite w64_mod. change 18446744073709551616 with (2 ^ 64).
  assert (D := N.div_mod' (a + b + c) (2 ^ 64)). assert (M := N.mod_lt (a + b + c) (2 ^ 64) ltac:(discriminate)).
  set (s := (a + b + c) mod 2 ^ 64) in *. set (q := (a + b + c) / 2 ^ 64) in *.
  change (2 ^ 64) with 18446744073709551616 in *.
  assert (q = 0 \/ q = 1) as [Q|Q] by nia.
  - rewrite Q in *. destruct (s =? a) eqn:E; [apply N.eqb_eq in E; lia|]. destruct (s <? a) eqn:E2; [apply N.ltb_lt in E2; lia|reflexivity].
  - rewrite Q in *. destruct (s =? a) eqn:E; [apply N.eqb_eq in E; lia|]. destruct (s <? a) eqn:E2; [reflexivity|apply N.ltb_ge in E2; apply N.eqb_neq in E; lia].
Qed.
Lemma div_carry a b c : a < 2^64 -> b < 2^64 -> c <= 1 -> (a + b + c) / 2 ^ 64 <= 1.
Proof. intros. apply N.lt_succ_r. apply N.div_lt_upper_bound; [discriminate|]. change (2^64) with 18446744073709551616 in *. lia. Qed.
Lemma add_loops x : forall y c, length x = length y -> q64 x -> q64 y -> c <= 1 ->
  add512_loop c x y = add512_addcarry c x y /\ q64 (add512_addcarry c x y) /\
  length (add512_addcarry c x y) = length x /\
  exists q, qval x + qval y + c = qval (add512_addcarry c x y) + q * 2 ^ (64 * N.of_nat (length x)).
Proof.
  induction x as [|a x IH]; intros [|b y] c L Fx Fy Hc; try discriminate.
  - split; [reflexivity|]. split; [constructor|]. split; [reflexivity|]. exists c. cbn. lia.
  - apply Forall_cons_iff in Fx as [Ha Fx]. apply Forall_cons_iff in Fy as [Hb Fy].
    cbn [add512_loop add512_addcarry]. rewrite portable_carry by auto. rewrite N.shiftr_div_pow2.
    destruct (IH y ((a + b + c) / 2 ^ 64) (eq_add_S _ _ L) Fx Fy (div_carry a b c Ha Hb Hc)) as (I1 & I2 & I3 & q & I4).
    rewrite I1. split; [reflexivity|]. split; [constructor; [rewrite w64_mod; apply N.mod_lt; discriminate|auto]|].
    cbn [length]. split; [congruence|]. exists q. cbn [qval].
    pose proof (add_carry_value a b c _ Ha Hb Hc eq_refl) as V. rewrite Nat2N.inj_succ, N.mul_succ_r, N.pow_add_r.
    set (M := 2 ^ (64 * N.of_nat (length x))) in *. set (cq := (a + b + c) / 2 ^ 64) in *. nia.
Qed.
Lemma add512_bytes_blocks x : forall y buf, length x = length y ->
  add512_bytes buf x y = n2le (length x) (le2n x + le2n y + N.shiftr buf 8).
Proof.
  induction x as [|a x IH]; intros [|b y] buf L; try discriminate; [reflexivity|].
  cbn [add512_bytes length n2le le2n]. rewrite IH by (simpl in L; lia).
  assert (R : forall u v : N, a + 256 * u + (b + 256 * v) + N.shiftr buf 8 = a + b + N.shiftr buf 8 + (u + v) * 256) by (intros; lia).
  rewrite R. f_equal.
  - change (N.land ?u 255) with (w8 u). rewrite !w8_mod, N.mod_add by discriminate. reflexivity.
  - f_equal. rewrite !shiftr8, N.div_add by discriminate. lia.
Qed.
Lemma n2le_congr n a b : a mod 256 ^ N.of_nat n = b mod 256 ^ N.of_nat n -> n2le n a = n2le n b.
Proof.
  intros H. apply le2n_inj; try apply n2le_bytes; [rewrite !n2le_length; reflexivity|]. rewrite !le2n_n2le. exact H.
Qed.
Lemma add512_spec bd ac x y : blk64 x -> blk64 y -> add512 bd ac x y = n2le 64 (le2n x + le2n y).
Proof.
  intros [Lx Bx] [Ly By].
  destruct (load_qval x) as (V1 & Q1 & N1); auto. { rewrite Lx; reflexivity. }
  destruct (load_qval y) as (V2 & Q2 & N2); auto. { rewrite Ly; reflexivity. }
  destruct (add_loops (load RefLE x) (load RefLE y) 0) as (E1 & E2 & E3 & q & E4); auto; [lia|lia|].
  assert (LE : store RefLE (add512_addcarry 0 (load RefLE x) (load RefLE y)) = n2le 64 (le2n x + le2n y)).
  { rewrite store_qval by auto. rewrite E3. replace (8 * length (load RefLE x))%nat with 64%nat by lia.
    apply n2le_congr. rewrite <- V1, <- V2. rewrite N.add_0_r in E4. rewrite E4.
    replace (length (load RefLE x)) with 8%nat by lia. change (2 ^ (64 * N.of_nat 8)) with (256 ^ N.of_nat 64).
    symmetry. apply N.mod_add. discriminate. }
  destruct bd; cbn [add512].
  - destruct ac; [exact LE|rewrite E1; exact LE].
  - rewrite add512_bytes_blocks by congruence. rewrite Lx. change (N.shiftr 0 8) with 0. rewrite N.add_0_r. reflexivity.
  - change (load SSE2) with (load RefLE). change (store SSE2) with (store RefLE). destruct ac; [exact LE|rewrite E1; exact LE].
Qed.
#[global] Opaque add512.

(** ** The running state *)
Section State.
Variable bd : build.
Variable ac : bool.
Variable iv : list N.
Variable ds : N.
Hypothesis Hiv : blk64 iv.

Definition run_blocks (B : list (list N)) : st := fold_left stage2_block B (mk_st iv 0 0).
Record tcore (x : sctx) (B : list (list N)) : Prop := {
  tc_h : t_h x = s_h (run_blocks B);
  tc_hb : blk64 (t_h x);
  tc_N : t_N x = n2le 64 (s_N (run_blocks B));
  tc_S : t_Sigma x = n2le 64 (s_Sigma (run_blocks B));
  tc_buf : length (t_buffer x) = 64%nat;
  tc_ds : t_digest_size x = ds
}.
Lemma vec_blk64 v : blk64 (n2le 64 v). Proof. split; [apply n2le_length|apply n2le_bytes]. Qed.
Lemma buffer512_le : buffer512 bd = n2le 64 512.
Proof. destruct bd; vm_compute; reflexivity. Qed.
Lemma add_vec v b : blk64 b -> add512 bd ac (n2le 64 v) b = n2le 64 (v + le2n b).
Proof.
  intros Hb. rewrite add512_spec by auto using vec_blk64. apply n2le_congr. rewrite le2n_n2le.
  apply N.add_mod_idemp_l. discriminate.
Qed.
Lemma stage2_core x B b : tcore x B -> blk64 b -> tcore (stage2 bd ac x b) (B ++ [b]).
Proof.
  intros [C1 C2 C3 C4 C5 C6] Hb. unfold stage2.
  assert (R : run_blocks (B ++ [b]) = stage2_block (run_blocks B) b) by (unfold run_blocks; rewrite fold_left_app; reflexivity).
  destruct (g_spec bd (t_h x) (t_N x) b C2) as [G1 G2]; [rewrite C3; apply vec_blk64|auto|].
  constructor; cbn [t_h t_N t_Sigma t_buffer t_digest_size]; [..|exact C5|exact C6]; rewrite ?R; unfold stage2_block; cbn [s_h s_N s_Sigma].
  - rewrite G1, C3, C1. reflexivity.
  - rewrite G1. exact G2.
  - rewrite C3, buffer512_le, add_vec by apply vec_blk64. reflexivity.
  - rewrite C4, add_vec by auto. reflexivity.
Qed.
Lemma tcore_buffer x B b : tcore x B -> length b = 64%nat -> tcore (t_with_buffer x b) B.
Proof. destruct x. intros [C1 C2 C3 C4 C5 C6] L. constructor; assumption. Qed.
Lemma tcore_bufsize x B n : tcore x B -> tcore (t_with_bufsize x n) B.
Proof. destruct x. intros [C1 C2 C3 C4 C5 C6]. constructor; assumption. Qed.

Lemma hash_wholes_core Bs : forall x B, tcore x B -> Forall blk64 Bs ->
  tcore (fold_left (hash_whole bd ac) Bs x) (B ++ Bs).
Proof.
  induction Bs as [|b Bs IH]; intros x B C F.
  - cbn [fold_left]. rewrite app_nil_r. exact C.
  - apply Forall_cons_iff in F as [Hb F]. cbn [fold_left].
    replace (B ++ b :: Bs) with ((B ++ [b]) ++ Bs) by (rewrite <- app_assoc; reflexivity).
    apply IH; auto. unfold hash_whole. apply stage2_core; auto. apply tcore_buffer; auto. apply Hb.
Qed.

Definition tinv (x : sctx) (n : nat) (m : list N) : Prop :=
  tcore x (blocks 64 (full 64 m)) /\ n = length (tail 64 m) /\ firstn n (t_buffer x) = tail 64 m.

Lemma blocks_blk64 l : (length l mod 64 = 0)%nat -> bytes l -> Forall blk64 (blocks 64 l).
Proof.
  intros A0 B0. pose proof (blocks_all_full 64 l ltac:(lia) A0). pose proof (blocks_bytes 64 l ltac:(lia) B0).
  rewrite Forall_forall in *. intros z Hz. split; auto.
Qed.

Lemma fill_loop_inv fuel : forall x n m data, bytes m -> bytes data -> tinv x n m -> (length data < fuel)%nat ->
  let '(x', n') := fill_loop bd ac fuel x n data in tinv x' n' (m ++ data).
Proof.
  induction fuel as [|fuel IH]; intros x n m data Bm Bd (C & L & R) F; [lia|].
  destruct data as [|d0 data']; [cbn [fill_loop]; rewrite app_nil_r; split; [exact C|split; [exact L|exact R]]|].
  set (data := d0 :: data') in *. assert (Ld : (0 < length data)%nat) by (cbn; lia).
  change (fill_loop bd ac (S fuel) x n data) with
    (let chunksize := Nat.min (64 - n) (length data) in
     let x := t_with_buffer x (overwrite (t_buffer x) n (firstn chunksize data)) in
     let bufsize := (n + chunksize)%nat in
     let data := skipn chunksize data in
     if (bufsize =? 64)%nat then fill_loop bd ac fuel (stage2 bd ac x (t_buffer x)) 0 data
     else fill_loop bd ac fuel x bufsize data).
  clearbody data. clear d0 data'. cbv zeta.
  pose proof (tail_lt 64 m ltac:(lia)) as TL.
  set (k := Nat.min (64 - n) (length data)).
  assert (Lk : length (firstn k data) = k) by (rewrite firstn_length; lia).
  assert (CR : length (t_buffer x) = 64%nat) by apply C.
  assert (RL : length (overwrite (t_buffer x) n (firstn k data)) = 64%nat).
  { rewrite overwrite_length; [exact CR|]. rewrite CR, Lk. lia. }
  assert (RE : firstn (n + k) (overwrite (t_buffer x) n (firstn k data)) = tail 64 m ++ firstn k data).
  { unfold overwrite. rewrite R, app_assoc. apply firstn_app_exact. rewrite app_length. lia. }
  set (buf := overwrite (t_buffer x) n (firstn k data)) in *. clearbody buf.
  assert (Bk : bytes (firstn k data)) by (apply bytes_firstn; auto).
  assert (Bs : bytes (skipn k data)) by (apply bytes_skipn; auto).
  assert (BT : bytes (tail 64 m)) by (apply bytes_skipn; auto).
  assert (BF : bytes (full 64 m)) by (apply bytes_firstn; auto).
  assert (LS : (length (skipn k data) < fuel)%nat) by (rewrite skipn_length; lia).
  assert (XM : (m ++ firstn k data) ++ skipn k data = m ++ data) by (rewrite <- app_assoc, firstn_skipn; reflexivity).
  assert (X : m ++ firstn k data = full 64 m ++ (tail 64 m ++ firstn k data)) by (rewrite app_assoc, full_tail; reflexivity).
  assert (FM := full_mod 64 m ltac:(lia)).
  rewrite <- XM.
  destruct (n + k =? 64)%nat eqn:E.
  - apply Nat.eqb_eq in E.
    assert (B1 : blk64 (tail 64 m ++ firstn k data)) by (split; [rewrite app_length; lia|apply bytes_app; auto]).
    assert (RB : buf = tail 64 m ++ firstn k data).
    { rewrite <- RE, E. symmetry. apply firstn_all2. lia. }
    assert (MM : (length (m ++ firstn k data) mod 64 = 0)%nat).
    { rewrite X, app_length, (proj1 B1), Nat.add_mod, FM by lia. reflexivity. }
    destruct (full_exact 64 (m ++ firstn k data) ltac:(lia) MM) as [FE TE].
    apply IH; auto; [apply bytes_app; auto|]. split; [|split].
    + rewrite FE, X, blocks_app by (auto; lia).
      rewrite (blocks_short 64 (tail 64 m ++ firstn k data)); [|lia| |rewrite (proj1 B1); lia].
      * cbn [t_buffer t_with_buffer]. rewrite <- RB. apply stage2_core; [apply tcore_buffer; auto|rewrite RB; exact B1].
      * intro Z. destruct B1 as [B1 _]. rewrite Z in B1. discriminate.
    + rewrite TE. reflexivity.
    + rewrite TE. reflexivity.
  - apply Nat.eqb_neq in E. assert (E' : (n + k < 64)%nat) by lia.
    destruct (cut_unique 64 (full 64 m) (tail 64 m ++ firstn k data)) as [XF XT]; auto; [lia|rewrite app_length; lia|].
    apply IH; auto; [apply bytes_app; auto|]. unfold tinv. rewrite X, XF, XT. split; [|split].
    + apply tcore_buffer; auto.
    + rewrite app_length. lia.
    + exact RE.
Qed.

Lemma hash_block_tinv x m data : bytes m -> bytes data -> tinv x (t_bufsize x) m ->
  tinv (gost2012_hash_block bd ac x data) (t_bufsize (gost2012_hash_block bd ac x data)) (m ++ data).
Proof.
  intros Bm Bd I. unfold gost2012_hash_block.
  match goal with |- context [if ?c then ?a else ?b] => set (p := if c then a else b) end.
  assert (P : exists x1 d1 d2, p = (x1, d2) /\ data = d1 ++ d2 /\ tinv x1 (t_bufsize x) (m ++ d1)).
  { subst p. destruct (t_bufsize x =? 0)%nat eqn:E.
    - apply Nat.eqb_eq in E. rewrite while_blocks_spec by lia.
      exists (fold_left (hash_whole bd ac) (blocks 64 (full 64 data)) x), (full 64 data), (tail 64 data).
      split; [reflexivity|]. split; [symmetry; apply full_tail|].
      destruct I as (C & L & R). rewrite E in *. symmetry in L. apply length_zero_iff_nil in L.
      pose proof (full_tail 64 m) as FT. rewrite L, app_nil_r in FT.
      assert (M0 : (length m mod 64 = 0)%nat) by (rewrite <- FT; apply full_mod; lia).
      assert (M1 : (length (m ++ full 64 data) mod 64 = 0)%nat).
      { rewrite app_length, Nat.add_mod, M0, full_mod by lia. reflexivity. }
      destruct (full_exact 64 (m ++ full 64 data) ltac:(lia) M1) as [FE TE].
      unfold tinv. rewrite FE, TE. split; [|split; reflexivity].
      rewrite blocks_app by (auto; lia). apply hash_wholes_core; [rewrite FT in C; exact C|].
      apply blocks_blk64; [apply full_mod; lia|apply bytes_firstn; auto].
    - exists x, nil, data. rewrite app_nil_r. auto. }
  destruct P as (x1 & d1 & d2 & -> & E & I1). subst data. apply bytes_app_inv in Bd as [B1 B2].
  pose proof (fill_loop_inv (S (length d2)) x1 (t_bufsize x) (m ++ d1) d2) as F.
  destruct (fill_loop bd ac (S (length d2)) x1 (t_bufsize x) d2) as [x2 n2].
  rewrite <- app_assoc in F. destruct F as (C & L & R); auto; [apply bytes_app; auto|].
  split; [apply tcore_bufsize; exact C|split; [exact L|exact R]].
Qed.

Lemma set_app_zeros n k : (0 < k)%nat -> forall a, length a = n -> set (a ++ zeros k) n 1 = a ++ [1] ++ zeros (k - 1).
Proof.
  intros Hk. induction n as [|n IH]; intros a L.
  - destruct a; [|discriminate]. destruct k; [lia|]. cbn. rewrite Nat.sub_0_r. reflexivity.
  - destruct a; [discriminate|]. cbn [app set]. f_equal. apply IH. simpl in L; lia.
Qed.

Lemma finish_tinv x m : bytes m -> tinv x (t_bufsize x) m ->
  snd (gost2012_finish_hash bd ac x) = (if ds =? 256 then skipn 32 (streebog iv m) else streebog iv m).
Proof.
  intros Bm (C & L & R). pose proof (tail_lt 64 m ltac:(lia)) as TL.
  assert (BT : bytes (tail 64 m)) by (apply bytes_skipn; auto).
  destruct C as [C1 C2 C3 C4 C5 C6].
  set (buf := tail 64 m ++ [1] ++ zeros (63 - length (tail 64 m))).
  assert (HB : t_buffer (pad x) = buf).
  { unfold pad. cbn [t_buffer t_with_buffer]. rewrite L in *. unfold overwrite. rewrite R, zeros_length.
    rewrite skipn_all2 by lia. rewrite app_nil_r.
    rewrite (set_app_zeros (length (tail 64 m))) by (auto; lia). subst buf. do 2 f_equal. f_equal. lia. }
  assert (Hb : blk64 buf).
  { split; [subst buf; rewrite !app_length, zeros_length; cbn [length]; lia|].
    subst buf. apply bytes_app; auto. apply bytes_app; [repeat constructor|apply bytes_zeros]. }
  unfold gost2012_finish_hash. cbn [snd]. unfold stage3. cbv zeta. cbn [t_with_bufsize t_digest_size t_h].
  rewrite HB.
  change (t_h (pad x)) with (t_h x). change (t_N (pad x)) with (t_N x). change (t_Sigma (pad x)) with (t_Sigma x).
  change (t_bufsize (pad x)) with (t_bufsize x). change (t_digest_size (pad x)) with (t_digest_size x).
  rewrite C6.
  match goal with |- context [add512 bd ac (t_N x) ?b] => set (lenb := b) end.
  assert (HL : lenb = n2le 64 (8 * N.of_nat (length (tail 64 m)))).
  { subst lenb. rewrite L. rewrite N.shiftl_mul_pow2. change (2 ^ 3) with 8. rewrite N.mul_comm.
    set (v := 8 * N.of_nat (length (tail 64 m))). assert (V : v < 512) by (subst v; lia). clearbody v.
    assert (G : n2le 64 v = n2le 8 v ++ zeros 56).
    { change 64%nat with (8 + 56)%nat. rewrite n2le_split8. f_equal.
      rewrite N.div_small by (change (2 ^ 64) with 18446744073709551616; lia). vm_compute. reflexivity. }
    rewrite G. f_equal. destruct bd; cbn [store flat_map]; rewrite app_nil_r; try reflexivity.
    unfold BSWAP64. apply n2be_be2n; [apply n2le_bytes|apply n2le_length]. }
  clearbody lenb. rewrite C3, C4 in *. rewrite HL, !add_vec by (auto using vec_blk64).
  rewrite le2n_n2le_small by (change (256 ^ N.of_nat 64) with (2 ^ 512);
    assert (8 * N.of_nat (length (tail 64 m)) < 512) by lia; eapply N.lt_trans; [eassumption|reflexivity]).
  unfold streebog. change (firstn (whole m) m) with (full 64 m). change (skipn (whole m) m) with (tail 64 m).
  fold (run_blocks (blocks 64 (full 64 m))). unfold stage3_rest. fold buf. cbv zeta. unfold vec512.
  set (s := run_blocks (blocks 64 (full 64 m))) in *. clearbody s. clearbody buf.
  destruct (g_spec bd (t_h x) (n2le 64 (s_N s)) buf C2 (vec_blk64 _) Hb) as [G1 G2]. rewrite G1.
  set (h1 := g_N _ _ _) in *.
  change buffer0 with (n2le 64 0).
  destruct (g_spec bd h1 (n2le 64 0) (n2le 64 (s_N s + 8 * N.of_nat (length (tail 64 m)))) G2 (vec_blk64 _) (vec_blk64 _)) as [G3 G4].
  rewrite G3. set (h2 := g_N (n2le 64 0) h1 _) in *.
  destruct (g_spec bd h2 (n2le 64 0) (n2le 64 (s_Sigma s + le2n buf)) G4 (vec_blk64 _) (vec_blk64 _)) as [G5 G6].
  rewrite G5. subst h2 h1. rewrite <- C1 in *.
  destruct (ds =? 256); [|reflexivity].
  unfold sub. apply firstn_all2. rewrite skipn_length, (proj1 G6). lia.
Qed.
End State.

Lemma init_tinv ds : tinv (if ds =? 256 then repeat 1 64 else zeros 64) ds (init_gost2012_hash_ctx ds) 0 nil.
Proof.
  unfold init_gost2012_hash_ctx. split; [|split; reflexivity]. constructor; try reflexivity.
  cbn [t_h]. destruct (ds =? 256); [|apply blk64_zeros]. split; [reflexivity|apply bytes_forallb; reflexivity].
Qed.
