(** Property C31, part 2: the kuznyechik-ctr-acpkm-omac digest. *)
From Coq Require Import String.
From Verif Require Import Bytes BytesProofs StreamMode CryptModel CryptProofs MagmaProofs
  KuzSpec KuzModel KuzTables KuzProofs KuzBlockProofs KuzCipherModel KuzCipherSpec KuzModeProofs PropKuzModes
  KdfModel OmacModel OmacSpec OmacProofs PropOmac.
From Verif Require CryptSpec.
From Coq Require Import List Lia NArith.
Open Scope N_scope.

(** * What the calls must return *)
(** The state: the key, the tag length, the section size N, the section size T of the master-key
    generator, and the message so far.  [None] for the message: the tag is not specified any more, until the next
    key. *)
Record am_state := mk_am { am_key : option (list N); am_len : nat; am_N : N; am_T : N; am_msg : option (list N) }.
Definition mult16 (n : Z) : bool := ((n mod 16) =? 0)%Z.
Definition u32 (n : Z) : N := Z.to_N (n mod 2 ^ 32).
Definition am_spec_step (s : am_state) (o : oac_call) : oac_result * bool * am_state :=
  (* the boolean tells whether the output of the call is specified *)
  match o with
  | ASetKey arg key =>
      if (arg =? 0)%Z || (arg =? 32)%Z then (ARet 1 nil, true, mk_am (Some key) 16 4096 4096 (Some nil))
      else (ARet 0 nil, true, mk_am None 16 4096 4096 (Some nil))
  | AKeyMesh n t =>
      (* a section size must be a non-zero multiple of the block length; the sizes can be chosen after the
         key and before the first data, T not below the 48 bytes already generated *)
      if (n =? 0)%Z || negb (mult16 n) then (ARet (-1) nil, true, s)
      else match am_key s with
           | None => (AUndefined, true, s)
           | Some k =>
               let untouched := match am_msg s with Some nil => true | _ => false end in
               match t with
               | None | Some 0%Z => (ARet 1 nil, true, mk_am (am_key s) (am_len s) (u32 n) (am_T s) (if untouched then Some nil else None))
               | Some t =>
                   if mult16 t
                   then (ARet 1 nil, true, mk_am (am_key s) (am_len s) (u32 n) (u32 t) (if untouched && (48 <=? u32 t) then Some nil else None))
                   else (ARet 0 nil, true, mk_am (am_key s) (am_len s) (u32 n) (am_T s) (if untouched then Some nil else None))
               end
           end
  | AXofLen len =>
      if ((1 <=? len) && (len <=? 16))%Z then (ARet 1 nil, true, mk_am (am_key s) (Z.to_nat len) (am_N s) (am_T s) (am_msg s))
      else (ARet 0 nil, true, s)
  | AUpdate data =>
      match am_key s with
      | Some k => (ARet 1 nil, true, mk_am (am_key s) (am_len s) (am_N s) (am_T s) (option_map (fun m => m ++ data) (am_msg s)))
      | None => (ARet 0 nil, true, s)
      end
  | AFinal =>
      match am_key s, am_msg s with
      | Some k, Some m => (ARet 1 (firstn (am_len s) (omac_acpkm (am_T s) (am_N s) k m)), true,
                           mk_am (am_key s) (am_len s) (am_N s) (am_T s) None)
      | Some k, None => (ARet 1 nil, false, s)
      | None, _ => (ARet 0 nil, true, s)
      end
  end.
Fixpoint am_spec (s : am_state) (ops : list oac_call) : list (oac_result * bool) :=
  match ops with
  | nil => nil
  | o :: t => let '(r, b, s) := am_spec_step s o in (r, b) :: am_spec s t
  end.
Definition am_meets (r : oac_result) (e : oac_result * bool) : Prop :=
  match e with
  | (e, true) => r = e
  | (ARet z _, false) => exists out, r = ARet z out
  | (AUndefined, false) => r = AUndefined
  end.
(** Keys are 32 bytes, data are bytes, integers are C ints. *)
Definition cint (n : Z) : Prop := (- 2 ^ 31 <= n < 2 ^ 31)%Z.
Definition acall_ok (o : oac_call) : Prop :=
  match o with
  | ASetKey _ key => blkn 32 key
  | AUpdate data => bytes data
  | AKeyMesh n t => cint n /\ match t with Some t => cint t | None => True end
  | _ => True
  end.

(** * Key material *)
Definition ff_iv : list N := repeat 0xff 8.
Lemma ff_ok : kuz_iv 8 ff_iv. Proof. split; [reflexivity|apply bytes_forallb; reflexivity]. Qed.
Definition ctr_ff : N := be2n (ff_iv ++ zeros 8).
Section Material.
Variables (T : N) (k : list N).
Hypothesis Hk : kuz_key k.
Let nx := CryptSpec.ctr_next E_ 16 (CryptSpec.section_no 16 T) k ctr_ff.
Let run := run_bytes nat nx (fun s _ => s) true.
Definition mks (i : nat) : list N := E_ (CryptSpec.acpkm_key E_ 16 k (CryptSpec.section_no 16 T i)) (n2be 16 (ctr_ff + N.of_nat i)).
Lemma mks_len i : length (mks i) = 16%nat.
Proof. exact (ctr_len16 k (CryptSpec.section_no 16 T) ctr_ff i Hk). Qed.
Lemma run16 i : run (i, nil, nil) (zeros 16) = ((S i, nil, nil), mks i).
Proof.
  unfold run. rewrite (run_block nat nx _ true i (S i) (mks i) (zeros 16)).
  - rewrite xorl_comm, xorl_zeros_r by apply mks_len. reflexivity.
  - reflexivity.
  - rewrite zeros_length; lia.
  - rewrite mks_len, zeros_length. reflexivity.
Qed.
Definition mat (j : nat) : list N := mks (3 * j) ++ mks (3 * j + 1) ++ mks (3 * j + 2).
Lemma zeros_app a b : zeros (a + b) = zeros a ++ zeros b.
Proof. apply repeat_app. Qed.
Lemma run48 j : run ((3 * j)%nat, nil, nil) (zeros 48) = (((3 * (j + 1))%nat, nil, nil), mat j).
Proof.
  change (zeros 48) with (zeros 16 ++ zeros 16 ++ zeros 16). unfold run. rewrite run_bytes_app. fold run. rewrite run16. unfold run.
  rewrite run_bytes_app. fold run. rewrite run16, run16. unfold mat.
  replace (3 * j + 1)%nat with (S (3 * j)) by lia. replace (3 * j + 2)%nat with (S (S (3 * j))) by lia.
  replace (3 * (j + 1))%nat with (S (S (S (3 * j)))) by lia. reflexivity.
Qed.
Lemma run_mats j : fst (run (0%nat, nil, nil) (zeros (48 * j))) = ((3 * j)%nat, nil, nil).
Proof.
  induction j as [|j IH]; [reflexivity|]. replace (48 * S j)%nat with (48 * j + 48)%nat by lia. rewrite zeros_app.
  unfold run in *. rewrite run_bytes_app. destruct (run_bytes nat nx _ true _ (zeros (48 * j))) as [st o]. cbn [fst] in IH. subst st.
  fold run. rewrite run48. cbn [fst]. f_equal. f_equal. lia.
Qed.
Lemma material_mat j : material T k j = mat j.
Proof.
  unfold material, kuz_ctr. fold ff_iv. fold ctr_ff. fold nx.
  rewrite <- (run_bytes_stream nat nx (fun s _ => s) 16 (fun _ => True)); [|intros s _; apply ctr_len16; exact Hk|auto|auto|lia|exact I].
  replace (48 * (j + 1))%nat with (48 * j + 48)%nat by lia. rewrite zeros_app. rewrite run_bytes_app. pose proof (run_mats j) as R.
  pose proof (run_bytes_length nat nx (fun s _ => s) true (0%nat, nil, nil) (zeros (48 * j))) as Ln. unfold run in R.
  destruct (run_bytes nat nx _ true _ (zeros (48 * j))) as [st o]. cbn [fst snd] in *. subst st. fold run. rewrite run48. cbn [snd].
  apply skipn_app_exact. rewrite Ln. apply zeros_length.
Qed.
Lemma mks_blk i : blk16 (mks i).
Proof. destruct (acpkm_key_ok k (CryptSpec.section_no 16 T i) Hk) as [L B]. apply E_blk; auto. apply n2be16_blk. Qed.
Lemma material_ok j : blkn 48 (material T k j).
Proof.
  rewrite material_mat. unfold mat. destruct (mks_blk (3 * j)) as [L1 B1], (mks_blk (3 * j + 1)) as [L2 B2], (mks_blk (3 * j + 2)) as [L3 B3].
  split; [rewrite !app_length; lia|auto using bytes_app].
Qed.
(** The generator produces the next 48 bytes. *)
Lemma next_material a j : T mod 16 = 0 -> 0 < T -> T < 4294967296 -> rel_ac T k ctr_ff a ((3 * j)%nat, nil, nil) ->
  snd (do_ctracpkm a (zeros 48)) = material T k j /\ rel_ac T k ctr_ff (fst (do_ctracpkm a (zeros 48))) ((3 * (j + 1))%nat, nil, nil).
Proof.
  intros T16 T0 T32 R. destruct (acpkm_sim T k ctr_ff T16 T0 T32 Hk a _ (zeros 48) (bytes_zeros 48) R) as [R1 R2].
  fold nx in R1, R2. fold run in R1, R2. rewrite run48 in R1, R2. rewrite material_mat. auto.
Qed.
End Material.

(** The first 48 bytes do not depend on T, if T is at least 48. *)
Lemma section_first T i : 48 <= T -> (i < 3)%nat -> CryptSpec.section_no 16 T i = 0%nat.
Proof.
  intros H Hi. unfold CryptSpec.section_no. destruct (N.eqb_spec T 0); [reflexivity|]. rewrite N.div_small by lia. reflexivity.
Qed.
Lemma material_first T T' k : kuz_key k -> 48 <= T -> 48 <= T' -> material T k 0 = material T' k 0.
Proof.
  intros Hk H H'. rewrite !material_mat by exact Hk. unfold mat, mks. rewrite !section_first by lia. reflexivity.
Qed.
Lemma rel_change T T' k a : 48 <= T -> 48 <= T' -> rel_ac T k ctr_ff a (3%nat, nil, nil) -> rel_ac T' k ctr_ff (kw_sect a T') (3%nat, nil, nil).
Proof.
  intros H H' [(K & Hs & Hi & Hp) [(Hn & _)|(j & Hj & _ & _ & Q)]].
  - split.
    + split; [|split; [reflexivity|split; [exact Hi|exact Hp]]]. change (3 - 1)%nat with 2%nat in *. rewrite (section_first T 2 H) in K by lia. rewrite (section_first T' 2 H') by lia. exact K.
    + left. split; [|auto]. unfold num_ac in *. cbn [Nat.eqb kw_sect k_num] in *. rewrite Hn. change (3 - 1)%nat with 2%nat.
      change (16 * N.of_nat 2) with 32. rewrite !N.mod_small by lia. reflexivity.
  - exfalso. apply (f_equal (@length N)) in Q. rewrite skipn_length, Hp in Q. cbn [length] in Q. lia.
Qed.

(** * Chaining *)
Section Chain.
Variables (T Ns : N) (k : list N).
Hypothesis T16 : T mod 16 = 0.
Hypothesis T0 : 0 < T.
Hypothesis T32 : T < 4294967296.
Hypothesis N16 : Ns mod 16 = 0.
Hypothesis N0 : 0 < Ns.
Hypothesis N32 : Ns < 4294967296.
Hypothesis Hk : kuz_key k.
Let sec := section_of Ns.
Let mt := material T k.
(** The state after [i] blocks, in section [j], with chaining value [c] and [num] bytes into the section. *)
Definition ch (j : nat) (num : N) (c : list N) (s : acs) : Prop :=
  kuz_ok (firstn 32 (mt j)) c (a_c s) /\ a_km s = mt j /\ a_sect s = Ns /\ a_num s = num /\
  rel_ac T k ctr_ff (a_a s) ((3 * (j + 1))%nat, nil, nil).
Definition ch_num (i : nat) : N := if (i =? 0)%nat then 0 else (16 * N.of_nat (i - 1)) mod Ns + 16.
Definition ch_at (i : nat) (c : list N) (s : acs) : Prop := ch (sec (i - 1)) (ch_num i) c s.
Lemma mt_key j : blkn 32 (firstn 32 (mt j)).
Proof.
  destruct (material_ok T k Hk j) as [L B]. split; [rewrite firstn_length; unfold mt; lia|apply bytes_firstn; exact B].
Qed.
Lemma mesh_ch i c s : blkn 16 c -> ch_at i c s -> ch (sec i) ((16 * N.of_nat i) mod Ns) c (CMAC_ACPKM_Mesh s).
Proof.
  intros Hc (Ho & Hm & Hs & Hn & Ha). unfold CMAC_ACPKM_Mesh. rewrite Hs, Hn. unfold ch_num in *. unfold sec, section_of.
  assert (Em : exists m, Ns = 16 * m /\ 0 < m).
  { exists (Ns / 16). pose proof (N.div_mod Ns 16 ltac:(discriminate)) as D. rewrite N16 in D. split; [lia|]. destruct (N.eq_dec (Ns / 16) 0); lia. }
  destruct Em as (m & Em & Pm). destruct (Nat.eqb_spec i 0) as [->|Hi].
  - replace (0 <? Ns) with true by (symmetry; apply N.ltb_lt; exact N0). change (16 * N.of_nat 0) with 0.
    rewrite N.mod_0_l, N.div_0_l by lia. unfold ch_at, sec, section_of in *. change (0 - 1)%nat with 0%nat in *. change (16 * N.of_nat 0) with 0 in *.
    rewrite N.div_0_l in * by lia. split; [exact Ho|]. repeat (split; [assumption|]). exact Ha.
  - assert (Ei : N.of_nat (i - 1) = N.of_nat i - 1) by lia.
    assert (Pi : 0 < N.of_nat i) by lia. unfold ch_at, sec, section_of in *. rewrite Ei in *.
    set (I := N.of_nat i) in *. clearbody I.
    destruct (sect_step16 m I Pm Pi) as [(S1 & S2 & S3)|(S1 & S2 & S3)]; rewrite <- Em in *.
    + rewrite S1, S2, S3. replace (Ns <? Ns) with false by (symmetry; apply N.ltb_irrefl).
      set (j := N.to_nat (16 * (I - 1) / Ns)) in *. replace (N.to_nat (16 * (I - 1) / Ns + 1)) with (j + 1)%nat by (unfold j; lia).
      destruct (next_material T k Hk (a_a s) (j + 1) T16 T0 T32 Ha) as [M1 M2].
      destruct (do_ctracpkm (a_a s) (zeros 48)) as [a km]. cbn [fst snd] in *. subst km. fold mt.
      pose proof Ho as (O1 & O2 & O3 & O4). rewrite O2.
      split; [|split; [reflexivity|split; [reflexivity|split; [reflexivity|exact M2]]]].
      cbn [a_c]. apply kuz_key_iv; auto. apply mt_key.
    + rewrite S2, S3. replace ((16 * (I - 1)) mod Ns + 16 <? Ns) with true by (symmetry; apply N.ltb_lt; lia).
      split; [exact Ho|]. repeat (split; [assumption|]). exact Ha.
Qed.
Lemma blk_ch i c b s : blkn 16 c -> blkn 16 b -> ch_at i c s ->
  ch_at (S i) (E_ (firstn 32 (mt (sec i))) (xorl c b)) (acpkm_blk s b).
Proof.
  intros Hc Hb H. pose proof (mesh_ch i c s Hc H) as (Ho & Hm & Hs & Hn & Ha). unfold acpkm_blk.
  set (s1 := CMAC_ACPKM_Mesh s) in *. clearbody s1. cbv zeta.
  destruct (kuz_H_do (a_c s1) _ c b (mt_key (sec i)) Ho Hc Hb) as [_ D]. cbn [kuz_cbc_cipher cc_do] in D.
  unfold ch_at. replace (S i - 1)%nat with i by lia.
  split; [exact D|]. split; [exact Hm|]. split; [exact Hs|]. split; [|exact Ha]. cbn [a_num]. rewrite Hn. unfold ch_num. cbn [Nat.eqb].
  replace (S i - 1)%nat with i by lia. apply w32_small.
  assert (Q : (16 * N.of_nat i) mod Ns + 16 <= Ns).
  { pose proof (N.div_mod Ns 16 ltac:(discriminate)) as D2. rewrite N16, N.add_0_r in D2.
    rewrite D2. rewrite N.mul_mod_distr_l by lia. pose proof (N.mod_lt (N.of_nat i) (Ns / 16) ltac:(lia)). lia. }
  lia.
Qed.
Lemma chain_ch H : Forall (blkn 16) H -> forall i c s, blkn 16 c -> ch_at i c s ->
  blkn 16 (chain (fun i => E_ (firstn 32 (mt (sec i)))) i c H) /\
  ch_at (i + length H) (chain (fun i => E_ (firstn 32 (mt (sec i)))) i c H) (fold_left acpkm_blk H s).
Proof.
  induction 1 as [|b t Hb F IH]; intros i c s Hc Hs; cbn [chain fold_left length].
  - rewrite Nat.add_0_r. auto.
  - replace (i + S (length t))%nat with (i + 1 + length t)%nat by lia. apply IH.
    + apply kuz_E_ok; [apply mt_key|apply blkn_xorl; auto].
    + replace (i + 1)%nat with (S i) by lia. apply blk_ch; auto.
Qed.
Definition start_ok (s : acs) : Prop := ch_at 0 (zeros 16) s.
Lemma final_ok s0 m x : start_ok s0 -> bytes m -> buf_ok 16 acpkm_blk s0 m x -> snd (CMAC_ACPKM_Final x) = omac_acpkm T Ns k m.
Proof.
  intros S0 Bm B. destruct x as [[s last] n]. destruct B as (Es & En & Ef & Ll). unfold CMAC_ACPKM_Final.
  assert (P : (0 < 16)%nat) by lia.
  pose proof (cut_exists 16 m P) as (Em & Fh & Lr & _). unfold omac_acpkm. cbv zeta. set (H := heads 16 m) in *. set (r := last_piece 16 m) in *.
  assert (Br : bytes r /\ Forall (blkn 16) H).
  { rewrite Em in Bm. apply bytes_app_inv in Bm as [B1 B2]. split; [exact B2|]. clear -Fh B1.
    induction Fh as [|b t Hb F IH]; constructor. - cbn [concat] in B1. apply bytes_app_inv in B1 as [B1 _]. split; auto.
    - cbn [concat] in B1. apply bytes_app_inv in B1 as [_ B1]. apply IH; auto. }
  destruct Br as [Br FH]. rewrite En in Ef |- *.
  destruct (chain_ch H FH 0 (zeros 16) s0 (blkn_zeros 16) S0) as [C1 C2]. rewrite <- Es in C2. cbn [Nat.add] in C2.
  pose proof (mesh_ch _ _ s C1 C2) as (Ho & Hm & Hs & Hn & Ha). set (s1 := CMAC_ACPKM_Mesh s) in *. clearbody s1.
  fold sec. fold mt. fold mt in C1, Hm, Ho. fold sec in C1, Hm, Ho. change (fun i : nat => E_ (firstn 32 (material T k (section_of Ns i)))) with (fun i => E_ (firstn 32 (mt (sec i)))).
  set (c := chain (fun i => E_ (firstn 32 (mt (sec i)))) 0 (zeros 16) H) in *. clearbody c.
  assert (Mb : blkn 48 (mt (sec (length H)))) by (apply material_ok; exact Hk). pose proof (mt_key (sec (length H))) as Kb.
  set (M := mt (sec (length H))) in *. clearbody M. rewrite Hm.
  assert (K1 : blkn 16 (skipn 32 M)) by (destruct Mb; split; [rewrite skipn_length; lia|apply bytes_skipn; auto]).
  destruct K1 as [L1 B1]. rewrite (make_kn_dbl 16 (skipn 32 M) B1 L1 P).
  pose proof (last_xor_spec 16 last r (skipn 32 M) (dbl 16 (skipn 32 M)) P Lr Ll Ef L1 (dbl_length _ _)) as X.
  destruct (last_xor 16 last (length r) (skipn 32 M) (dbl 16 (skipn 32 M))) as [last' x']. cbn [snd] in X. subst x'.
  assert (Bx : blkn 16 (last_block 16 r (skipn 32 M) (dbl 16 (skipn 32 M)))).
  { unfold last_block. destruct (Nat.eqb_spec (length r) 16) as [Q|Q]; apply blkn_xorl; try (split; auto); auto using dbl_length, dbl_bytes. unfold pad.
    - rewrite !app_length, zeros_length. cbn [length]. lia.
    - apply bytes_app; auto. constructor; [reflexivity|apply bytes_zeros]. }
  destruct (kuz_H_do (a_c s1) _ _ _ Kb Ho C1 Bx) as [D1 _]. cbn [kuz_cbc_cipher cc_do] in D1.
  destruct (do_cbc (a_c s1) _) as [c' out]. cbn [fst snd] in *. exact D1.
Qed.
End Chain.

Lemma init_trunc n c key v enc :
  gost_grasshopper_cipher_init n c key (Some v) enc = gost_grasshopper_cipher_init n c key (Some (firstn n v)) enc.
Proof. unfold gost_grasshopper_cipher_init. rewrite firstn_firstn, Nat.min_id. reflexivity. Qed.
Lemma none_init_ok c : kctx_ok c -> kctx_ok (init_ctracpkm c None None true) /\ k_iv (init_ctracpkm c None None true) = overwrite (k_iv c) 0 (firstn 8 (k_oiv c)).
Proof.
  intros (H1 & H2 & H3 & H4 & H5). unfold init_ctracpkm, gost_grasshopper_cipher_init, kctx_ok.
  cbn [kw_iv kw_enc kw_sect kw_num k_ek k_dk k_oiv k_iv k_buf k_part]. split; [|reflexivity].
  repeat (split; [assumption|]). split; [|exact H5]. rewrite overwrite_length; [exact H4|]. rewrite firstn_length. lia.
Qed.
Lemma set_key_start k : blkn 32 k -> start_ok 4096 4096 k (fst (fst (CMAC_ACPKM_Init k))) /\
  exists s, CMAC_ACPKM_Init k = (s, zeros 32, 0%nat).
Proof.
  intros Hk. unfold CMAC_ACPKM_Init. destruct (none_init_ok kctx0 kctx0_ok) as [A1 A2].
  set (a0 := init_ctracpkm kctx0 None None true) in *.
  assert (Z : skipn 8 (k_iv a0) = zeros 8) by (rewrite A2; reflexivity). clearbody a0.
  assert (E : init_ctracpkm a0 (Some k) (Some (repeat 255 8 ++ zeros 8)) true = acpkm_start a0 None k ff_iv true).
  { unfold acpkm_start, init_ctracpkm. rewrite init_trunc. reflexivity. }
  rewrite E. destruct (acpkm_start_rel a0 None k ff_iv true A1 Z Hk ff_ok I) as (_ & _ & _ & R).
  change (acpkm_section None) with 4096 in R. fold ctr_ff in R.
  set (a1 := acpkm_start a0 None k ff_iv true) in *. clearbody a1.
  destruct (next_material 4096 k Hk a1 0 eq_refl eq_refl eq_refl R) as [M1 M2].
  destruct (do_ctracpkm a1 (zeros 48)) as [a km]. cbn [fst snd] in M1, M2. subst km.
  split; [|eexists; reflexivity]. cbn [fst]. unfold start_ok, ch_at, ch. cbn [a_c a_km a_sect a_num a_a].
  assert (Es : section_of 4096 (0 - 1) = 0%nat) by reflexivity. rewrite Es.
  split; [|split; [reflexivity|split; [reflexivity|split; [reflexivity|exact M2]]]].
  assert (Kb : blkn 32 (firstn 32 (material 4096 k 0))).
  { destruct (material_ok 4096 k Hk 0) as [L B]. split; [rewrite firstn_length; lia|apply bytes_firstn; exact B]. }
  set (K1 := firstn 32 (material 4096 k 0)) in *. clearbody K1.
  apply kuz_key_iv; auto using blkn_zeros. apply kuz_init_none. exact kctx0_ok.
Qed.
(** Section sizes. *)
Lemma rem_mult16 n : (Z.rem n 16 =? 0)%Z = mult16 n.
Proof.
  unfold mult16. destruct (Z.eqb_spec (Z.rem n 16) 0) as [E|E]; symmetry; [apply Z.eqb_eq|apply Z.eqb_neq].
  - apply Z.mod_divide; [lia|]. apply Z.rem_divide; [lia|exact E].
  - intro F. apply E. apply Z.rem_divide; [lia|]. apply Z.mod_divide; [lia|exact F].
Qed.
Definition size_ok (x : N) : Prop := x mod 16 = 0 /\ 0 < x /\ x < 4294967296.
Lemma u32_ok n : cint n -> n <> 0%Z -> mult16 n = true -> size_ok (u32 n).
Proof.
  unfold cint, mult16, u32. intros Hc Hn Hm. apply Z.eqb_eq in Hm.
  assert (B : (0 <= n mod 2 ^ 32 < 2 ^ 32)%Z) by (apply Z.mod_pos_bound; lia).
  assert (Q : (n mod 2 ^ 32 <> 0)%Z).
  { intro F. apply Z.mod_divide in F; [|lia]. destruct F as [q F]. lia. }
  split; [|split; lia].
  apply N2Z.inj. rewrite N2Z.inj_mod, Z2N.id by lia. change (Z.of_N 16) with 16%Z. change (Z.of_N 0) with 0%Z.
  change (2 ^ 32)%Z with (16 * 268435456)%Z. apply Z.mod_divide; [lia|]. apply Z.mod_divide in Hm; [|lia]. destruct Hm as [q ->].
  rewrite Z.mul_comm, Z.mul_mod_distr_l by lia. exists (q mod 268435456)%Z. lia.
Qed.
Lemma restart T N_ T' N' k s0 x a : size_ok T' -> 48 <= T' ->
  start_ok T N_ k s0 -> buf_ok 16 acpkm_blk s0 nil x -> 48 <= T -> kuz_key k ->
  (a = a_a (fst (fst x)) /\ T' = T) \/ a = kw_sect (a_a (fst (fst x))) T' ->
  exists s0', start_ok T' N' k s0' /\ buf_ok 16 acpkm_blk s0' nil (acm_mesh x N' a).
Proof.
  intros HT' T'48 (Ho & Hm & Hs & Hn & Ha) B T48 Hk Ea. destruct x as [[s last] n]. destruct B as (Es & En & Ef & Ll).
  change (heads 16 []) with (@nil (list N)) in Es. cbn [fold_left] in Es. subst s. cbn [fst] in Ea.
  cbn [acm_mesh]. exists (mk_acs (a_c s0) a (a_km s0) N' (a_num s0)). split.
  - unfold start_ok, ch_at, ch in *. cbn [a_c a_km a_sect a_num a_a].
    assert (E0 : forall M, section_of M (0 - 1) = 0%nat) by (intro M; unfold section_of; change (16 * N.of_nat (0 - 1)) with 0; destruct M; reflexivity).
    rewrite E0 in *. rewrite (material_first T' T k Hk T'48 T48).
    split; [exact Ho|]. split; [exact Hm|]. split; [reflexivity|]. split; [exact Hn|]. change (3 * (0 + 1))%nat with 3%nat in *.
    destruct Ea as [[-> ->]| ->]; [exact Ha|]. apply (rel_change T T' k _ T48 T'48 Ha).
  - split; [reflexivity|]. split; [exact En|]. split; [exact Ef|exact Ll].
Qed.

Definition am_rel (s : am_state) (c : oac_ctx) : Prop :=
  oc_size c = am_len s /\
  match am_key s with
  | None => oc_set c = false /\ oc_cmac c = None
  | Some k => oc_set c = true /\ blkn 32 k /\
      exists x, oc_cmac c = Some x /\
        match am_msg s with
        | Some m => bytes m /\ size_ok (am_T s) /\ 48 <= am_T s /\ size_ok (am_N s) /\
            exists s0, start_ok (am_T s) (am_N s) k s0 /\ buf_ok 16 acpkm_blk s0 m x
        | None => True
        end
  end.
Lemma am_key_mesh s c n t : am_rel s c -> cint n -> match t with Some t => cint t | None => True end ->
  let '(r, c') := oac_step c (AKeyMesh n t) in
  let '(r', b, s') := am_spec_step s (AKeyMesh n t) in
  am_meets r (r', b) /\ am_rel s' c'.
Proof.
  intros [Rl Rk] Hn Ht. cbn [oac_step am_spec_step]. unfold omac_acpkm_key_mesh. rewrite rem_mult16.
  destruct ((n =? 0)%Z || negb (mult16 n)) eqn:G. { split; [reflexivity|split; auto]. }
  apply orb_false_elim in G as [G1 G2]. apply Z.eqb_neq in G1. apply negb_false_iff in G2.
  pose proof (u32_ok n Hn G1 G2) as Un. change (Z.to_N (n mod 4294967296)) with (u32 n). set (N' := u32 n) in *. clearbody N'.
  destruct (am_key s) as [k|] eqn:Ek.
  2:{ destruct Rk as [R1 R2]. rewrite R2. split; [reflexivity|]. split; [exact Rl|]. rewrite Ek. auto. }
  destruct Rk as (R1 & R2 & x & R3 & R4). rewrite R3.
  (* the two kinds of change of T *)
  assert (KEEP : am_rel (mk_am (Some k) (am_len s) N' (am_T s) (if match am_msg s with Some nil => true | _ => false end then Some nil else None))
      (mk_oac (Some (acm_mesh x N' (a_a (fst (fst x))))) (oc_size c) (oc_set c))).
  { split; [exact Rl|]. cbn [am_key am_msg am_T am_N oc_set oc_cmac]. split; [exact R1|]. split; [exact R2|]. eexists. split; [reflexivity|].
    destruct (am_msg s) as [[|b m]|]; [|exact I|exact I]. destruct R4 as (Q1 & Q2 & Q3 & Q4 & s0 & Q5 & Q6).
    split; [constructor|]. split; [exact Q2|]. split; [exact Q3|]. split; [exact Un|].
    eapply restart; eauto. }
  destruct t as [t|]; [|split; [reflexivity|exact KEEP]].
  destruct (Z.eqb_spec t 0) as [->|Ht0]; [split; [reflexivity|exact KEEP]|].
  unfold kuz_ctl_key_mesh. rewrite rem_mult16. replace (t =? 0)%Z with false by (symmetry; apply Z.eqb_neq; exact Ht0). cbn [orb].
  destruct (mult16 t) eqn:Mt; cbn [negb].
  - pose proof (u32_ok t Ht Ht0 Mt) as Ut. change (Z.to_N (t mod 4294967296)) with (u32 t).
    destruct t as [|t|t]; [contradiction| |]; rewrite ?Mt.
    all: set (T' := u32 _) in *; clearbody T'; split; [reflexivity|]; split; [exact Rl|]; cbn [am_key am_msg am_T am_N oc_set oc_cmac];
      split; [exact R1|]; split; [exact R2|]; eexists; (split; [reflexivity|]);
      destruct (am_msg s) as [[|b m]|]; cbn [andb]; try exact I; destruct (N.leb_spec 48 T') as [H48|H48]; [|exact I];
      destruct R4 as (Q1 & Q2 & Q3 & Q4 & s0 & Q5 & Q6); split; [constructor|]; split; [exact Ut|]; split; [exact H48|]; split; [exact Un|];
      eapply restart; eauto.
  - destruct t as [|t|t]; [contradiction| |]; rewrite ?Mt; (split; [reflexivity|exact KEEP]).
Qed.
Lemma am_step s c o : am_rel s c -> acall_ok o ->
  let '(r, c') := oac_step c o in
  let '(r', b, s') := am_spec_step s o in
  am_meets r (r', b) /\ am_rel s' c'.
Proof.
  intros R Ho. destruct o as [arg key|n t|len|data|].
  2:{ destruct Ho. apply am_key_mesh; auto. }
  all: destruct R as [Rl Rk]; cbn [acall_ok] in Ho; cbn [oac_step am_spec_step].
  - unfold omac_acpkm_set_key. destruct ((arg =? 0)%Z || (arg =? 32)%Z).
    + rewrite (firstn_all2 key) by (destruct Ho; lia). split; [reflexivity|]. split; [reflexivity|]. cbn [am_key am_msg am_T am_N oc_set oc_cmac].
      split; [reflexivity|]. split; [exact Ho|]. eexists. split; [reflexivity|]. split; [constructor|].
      assert (S4 : size_ok 4096) by (split; [reflexivity|split; reflexivity]). split; [exact S4|]. split; [lia|]. split; [exact S4|].
      destruct (set_key_start key Ho) as [S0 (s1 & E)]. rewrite E in *. cbn [fst] in S0. exists s1. split; [exact S0|].
      apply buf_start; rewrite ?zeros_length; lia.
    + split; [reflexivity|]. split; [reflexivity|]. split; reflexivity.
  - replace ((1 <=? len) && (len <=? 16))%Z with (negb ((len <? 1)%Z || (16 <? len)%Z)) by (rewrite negb_orb, <- !Z.leb_antisym; reflexivity).
    destruct ((len <? 1)%Z || (16 <? len)%Z); cbn [negb].
    + split; [reflexivity|]. split; auto.
    + split; [reflexivity|]. split; [reflexivity|]. exact Rk.
  - destruct (am_key s) as [k|] eqn:Ek.
    + destruct Rk as (R1 & R2 & x & R3 & R4). rewrite R1, R3. split; [reflexivity|]. split; [exact Rl|].
      cbn [am_key am_msg am_T am_N oc_set oc_cmac]. split; [reflexivity|]. split; [exact R2|]. eexists. split; [reflexivity|].
      destruct (am_msg s) as [m|]; cbn [option_map]; [|exact I]. destruct R4 as (Q1 & Q2 & Q3 & Q4 & s0 & Q5 & Q6).
      split; [apply bytes_app; auto|]. split; [exact Q2|]. split; [exact Q3|]. split; [exact Q4|]. exists s0. split; [exact Q5|].
      apply upd_ok; auto; lia.
    + destruct Rk as [R1 R2]. rewrite R1. split; [reflexivity|]. split; [exact Rl|]. rewrite Ek. auto.
  - destruct (am_key s) as [k|] eqn:Ek.
    + destruct Rk as (R1 & R2 & x & R3 & R4). rewrite R1, R3.
      assert (V : match am_msg s with Some m => snd (CMAC_ACPKM_Final x) = omac_acpkm (am_T s) (am_N s) k m | None => True end).
      { destruct (am_msg s) as [m|]; [|exact I]. destruct R4 as (Q1 & (T1 & T2 & T3) & Q3 & (N1 & N2 & N3) & s0 & Q5 & Q6).
        apply (final_ok (am_T s) (am_N s) k T1 T2 T3 N1 N2 N3 R2 s0 m x Q5 Q1 Q6). }
      destruct (CMAC_ACPKM_Final x) as [x' mac]. cbn [snd] in V. destruct (am_msg s) as [m|] eqn:Em.
      * split; [rewrite <- V, Rl; reflexivity|]. split; [exact Rl|]. cbn [am_key am_msg oc_set oc_cmac]. split; [reflexivity|]. split; [exact R2|].
        eexists. split; [reflexivity|exact I].
      * split; [eexists; reflexivity|]. split; [exact Rl|]. rewrite Ek, Em. split; [reflexivity|]. split; [exact R2|]. eexists. split; [reflexivity|exact I].
    + destruct Rk as [R1 R2]. rewrite R1. split; [reflexivity|]. split; [exact Rl|]. rewrite Ek. auto.
Qed.

(** ** C31: histories of kuznyechik-ctr-acpkm-omac *)
(** Every sequence of calls returns what the specification says: the tag is the truncated OMAC-ACPKM of
    RFC 8645 of everything fed since the key was set, whatever the chunks, with the section sizes chosen by the
    control call before the first data; calls without a key fail. *)
Theorem C31_omac_acpkm_histories :
  forall ops, Forall acall_ok ops ->
    Forall2 am_meets (oac_run omac_acpkm_init ops) (am_spec (mk_am None 16 4096 4096 (Some nil)) ops).
Proof.
  intros ops F. assert (G : forall ops, Forall acall_ok ops -> forall s c, am_rel s c -> Forall2 am_meets (oac_run c ops) (am_spec s ops)).
  { clear. induction 1 as [|o t Ho F IH]; intros s c R; cbn [oac_run am_spec]; [constructor|].
    pose proof (am_step s c o R Ho) as S1. destruct (oac_step c o) as [r c']. destruct (am_spec_step s o) as [[r' b] s'].
    destruct S1. constructor; auto. }
  apply G; [exact F|]. split; [reflexivity|]. split; reflexivity.
Qed.
