(** The multilinear Galois mode: the code against MgmSpec. *)
From Verif Require Import Bytes BytesProofs Gf2 BlockLoop CryptModel CryptProofs MagmaProofs MgmModel MgmSpec MgmFieldProofs.

Lemma clear7 x : x < 256 -> N.land x 0x7f = x mod 128.
Proof. intros _. change 0x7f with (N.ones 7). apply N.land_ones. Qed.
Lemma set8 x : x < 256 -> N.lor x 0x80 = 128 + x mod 128.
Proof.
  intros H. pose proof (N.div_mod x 128 ltac:(lia)) as D. pose proof (N.mod_lt x 128 ltac:(lia)) as M.
  assert (Q : N.lor (x mod 128) 128 = 128 + x mod 128).
  { rewrite N.add_comm. rewrite <- N.lxor_lor; [symmetry; apply N.add_nocarry_lxor|].
    - apply N.bits_inj. intros m. rewrite N.land_spec, N.bits_0. destruct (N.lt_ge_cases m 7).
      + change 128 with (2 ^ 7) at 2. rewrite (N.pow2_bits_false 7) by lia. apply andb_false_r.
      + rewrite (lt_pow2_high (x mod 128) 7) by auto. reflexivity.
    - apply N.bits_inj. intros m. rewrite N.land_spec, N.bits_0. destruct (N.lt_ge_cases m 7).
      + change 128 with (2 ^ 7) at 2. rewrite (N.pow2_bits_false 7) by lia. apply andb_false_r.
      + rewrite (lt_pow2_high (x mod 128) 7) by auto. reflexivity. }
  rewrite <- Q. apply N.bits_inj. intros m. rewrite !N.lor_spec. destruct (N.lt_ge_cases m 7).
  - change (x mod 128) with (x mod 2 ^ 7). rewrite N.mod_pow2_bits_low by auto. reflexivity.
  - change (x mod 128) with (x mod 2 ^ 7). rewrite N.mod_pow2_bits_high by auto. destruct (N.eq_dec m 7) as [->|].
    + rewrite !orb_true_r. reflexivity.
    + rewrite (lt_pow2_high x 8) by (auto; lia). reflexivity.
Qed.

Section Gen.
  Variable bl : nat.
  Variable le : bool.
  Variable E : list N -> list N.
  Variable mul : list N -> list N -> list N.
  Definition isblk (b : list N) : Prop := length b = bl /\ bytes b.
  Hypothesis Hbl : bl = 8%nat \/ bl = 16%nat.
  Hypothesis HE : forall b, isblk b -> isblk (E b).
  Hypothesis Hmul : forall a b, isblk a -> isblk b -> isblk (mul a b).

  Lemma bl_pos : (0 < bl)%nat. Proof. destruct Hbl; lia. Qed.
  Lemma blk_zeros : isblk (zeros bl). Proof. split; [apply zeros_length|apply bytes_zeros]. Qed.
  Lemma blk_xorl a b : isblk a -> isblk b -> isblk (xorl a b).
  Proof. intros [L1 B1] [L2 B2]. split; [rewrite xorl_length_eq; lia|apply xorl_bytes; auto]. Qed.

  Variable icn : list N.
  Hypothesis Hicn : isblk icn.

  (** ** Nonce blocks *)
  Lemma with_bit_blk b : b <= 1 -> isblk (with_bit b icn).
  Proof.
    intros Hb. destruct Hicn as [L B]. destruct icn as [|x t]; [split; auto|]. split; [exact L|].
    inversion B; subst. constructor; auto. pose proof (N.mod_lt x 128 ltac:(lia)). unfold isbyte in *. nia.
  Qed.
  Lemma clear_with b : b <= 1 -> clear_msb (with_bit b icn) = with_bit 0 icn.
  Proof.
    intros Hb. destruct Hicn as [L B]. destruct icn as [|x t]; [reflexivity|]. cbn [with_bit]. unfold clear_msb. cbn [nth set].
    f_equal. pose proof (N.mod_lt x 128 ltac:(lia)). rewrite clear7 by lia. rewrite N.mul_0_r, N.add_0_l.
    symmetry. apply N.mod_unique with (q := b); lia.
  Qed.
  Lemma set_with b : b <= 1 -> set_msb (with_bit b icn) = with_bit 1 icn.
  Proof.
    intros Hb. destruct Hicn as [L B]. destruct icn as [|x t]; [reflexivity|]. cbn [with_bit]. unfold set_msb. cbn [nth set].
    f_equal. pose proof (N.mod_lt x 128 ltac:(lia)). rewrite set8 by lia. rewrite N.mul_1_r. f_equal.
    symmetry. apply N.mod_unique with (q := b); lia.
  Qed.
  Lemma clear_icn : clear_msb icn = with_bit 0 icn.
  Proof.
    destruct Hicn as [L B]. destruct icn as [|x t]; [reflexivity|]. cbn [with_bit]. unfold clear_msb. cbn [nth set].
    inversion B; subst. rewrite clear7 by auto. rewrite N.mul_0_r. reflexivity.
  Qed.

  (** ** Counters *)
  Lemma half : (bl / 2 + bl / 2 = bl)%nat. Proof. destruct Hbl as [e|e]; rewrite e; reflexivity. Qed.
  Lemma n2be_add_mod n x i : n2be n (be2n (n2be n x) + i) = n2be n (x + i).
  Proof.
    rewrite be2n_n2be. rewrite <- n2be_mod. rewrite N.add_mod_idemp_l by (apply N.pow_nonzero; discriminate). apply n2be_mod.
  Qed.
  Lemma Zcnt_blk i : isblk (Zcnt bl E icn i).
  Proof.
    destruct (HE _ (with_bit_blk 1 ltac:(lia))) as [L B]. pose proof half. unfold Zcnt, add_l. split.
    - rewrite app_length, n2be_length, skipn_length, L. lia.
    - apply bytes_app; [apply n2be_bytes|apply bytes_skipn; auto].
  Qed.
  Lemma Ycnt_blk i : isblk (Ycnt bl E icn i).
  Proof.
    destruct (HE _ (with_bit_blk 0 ltac:(lia))) as [L B]. pose proof half. unfold Ycnt, add_r. split.
    - rewrite app_length, n2be_length, firstn_length, L. lia.
    - apply bytes_app; [apply bytes_firstn; auto|apply n2be_bytes].
  Qed.
  Lemma Zcnt_0 : Zcnt bl E icn 0 = E (with_bit 1 icn).
  Proof.
    destruct (HE _ (with_bit_blk 1 ltac:(lia))) as [L B]. pose proof half. unfold Zcnt, add_l. cbn [N.of_nat]. rewrite N.add_0_r.
    rewrite n2be_be2n; [apply firstn_skipn|apply bytes_firstn; auto|rewrite firstn_length; lia].
  Qed.
  Lemma Ycnt_0 : Ycnt bl E icn 0 = E (with_bit 0 icn).
  Proof.
    destruct (HE _ (with_bit_blk 0 ltac:(lia))) as [L B]. pose proof half. unfold Ycnt, add_r. cbn [N.of_nat]. rewrite N.add_0_r.
    rewrite n2be_be2n; [apply firstn_skipn|apply bytes_skipn; auto|rewrite skipn_length; lia].
  Qed.
  Lemma incr_l_Z i : incr_l bl (Zcnt bl E icn i) = Zcnt bl E icn (S i).
  Proof.
    unfold incr_l, Zcnt, add_l. rewrite firstn_app_exact, skipn_app_exact by apply n2be_length.
    rewrite inc_counter_n2be. f_equal. f_equal. lia.
  Qed.
  Lemma incr_r_Y i : incr_r bl (Ycnt bl E icn i) = Ycnt bl E icn (S i).
  Proof.
    destruct (HE _ (with_bit_blk 0 ltac:(lia))) as [L B]. pose proof half.
    assert (F : length (firstn (bl / 2) (E (with_bit 0 icn))) = (bl / 2)%nat) by (rewrite firstn_length; lia).
    unfold incr_r, Ycnt, add_r. rewrite firstn_app_exact, skipn_app_exact by exact F.
    rewrite inc_counter_n2be. f_equal. f_equal. lia.
  Qed.

  (** ** The multilinear sum *)
  Lemma ml_blk bs : Forall isblk bs -> forall i, isblk (multilinear bl E mul icn i bs).
  Proof.
    induction 1 as [|b bs Hb _ IH]; intros i; cbn [multilinear]; [apply blk_zeros|].
    apply blk_xorl; auto. apply Hmul; auto. apply HE, Zcnt_blk.
  Qed.
  Lemma ml_snoc bs b : Forall isblk bs -> isblk b -> forall i, multilinear bl E mul icn i (bs ++ [b]) =
    xorl (multilinear bl E mul icn i bs) (mul (E (Zcnt bl E icn (i + length bs))) b).
  Proof.
    intros F Hb. induction F as [|x bs Hx F IH]; intros i; cbn [multilinear app length].
    - rewrite Nat.add_0_r, xorl_zeros_r; [rewrite xorl_comm, xorl_zeros_r; auto|]; apply Hmul; auto; apply HE, Zcnt_blk.
    - rewrite IH, xorl_assoc. replace (S i + length bs)%nat with (i + S (length bs))%nat by lia. reflexivity.
  Qed.
  (** [c] has absorbed the blocks [bs]. *)
  Definition AB (c : mgm) (bs : list (list N)) : Prop :=
    Forall isblk bs /\ m_Zi c = Zcnt bl E icn (length bs) /\ m_sum c = multilinear bl E mul icn 0 bs.
  Lemma absorb_AB c bs b : AB c bs -> isblk b -> AB (absorb bl E mul c b) (bs ++ [b]).
  Proof.
    intros (F & HZ & HS) Hb. split; [apply Forall_app; auto|]. unfold absorb. cbn [m_Zi m_sum m_w_Zi m_w_sum].
    rewrite HZ, HS. split.
    - rewrite incr_l_Z. f_equal. rewrite app_length. cbn [length]. lia.
    - rewrite ml_snoc by auto. reflexivity.
  Qed.
  (** What [absorb] leaves alone. *)
  Definition rest (c : mgm) := (m_nonce c, m_Yi c, m_EKi c, m_ACi c, m_alen c, m_mlen c, m_mres c, m_ares c).
  Lemma absorb_rest c b : rest (absorb bl E mul c b) = rest c. Proof. reflexivity. Qed.
  Lemma fold_absorb bs2 : Forall isblk bs2 -> forall c bs, AB c bs ->
    AB (fold_left (absorb bl E mul) bs2 c) (bs ++ bs2) /\ rest (fold_left (absorb bl E mul) bs2 c) = rest c.
  Proof.
    induction 1 as [|b bs2 Hb F IH]; intros c bs H; cbn [fold_left].
    - rewrite app_nil_r. auto.
    - destruct (IH _ _ (absorb_AB c bs b H Hb)) as [A R]. rewrite <- app_assoc in A. split; auto. 
  Qed.
  Lemma full_blocks_blk m : bytes m -> Forall isblk (blocks bl (full bl m)).
  Proof.
    intros B. pose proof bl_pos. pose proof (blocks_all_full bl (full bl m) bl_pos (full_mod bl m bl_pos)) as L.
    pose proof (blocks_bytes bl (full bl m) bl_pos (bytes_firstn _ _ B)) as Q.
    rewrite Forall_forall in *. intros b Hb. split; auto.
  Qed.

  (** ** Associated data *)
  Definition nonce_ok (c : mgm) : Prop := exists b, b <= 1 /\ m_nonce c = with_bit b icn.
  (** [started]: at least one call was made. *)
  Definition Inv1 (started : bool) (c : mgm) (A : list N) : Prop :=
    bytes A /\ nonce_ok c /\ m_alen c = N.of_nat (length A) /\ m_mlen c = 0 /\ m_mres c = 0%nat /\
    m_ares c = length (tail bl A) /\ isblk (m_ACi c) /\ firstn (m_ares c) (m_ACi c) = tail bl A /\
    m_sum c = multilinear bl E mul icn 0 (blocks bl (full bl A)) /\
    (if started then AB c (blocks bl (full bl A)) else A = nil).

  Lemma tail_bytes m : bytes m -> bytes (tail bl m). Proof. intros. apply bytes_skipn. auto. Qed.
  Lemma blk_overwrite b off s : isblk b -> bytes s -> (off + length s <= bl)%nat -> isblk (overwrite b off s).
  Proof.
    intros [L B] Bs H. split; [rewrite overwrite_length; lia|].
    unfold overwrite. repeat apply bytes_app; auto; [apply bytes_firstn|apply bytes_skipn]; auto.
  Qed.
  Lemma setiv_Inv1 c : Inv1 false (gost_mgm128_setiv bl c icn) nil.
  Proof.
    pose proof bl_pos. destruct Hicn as [L B].
    repeat split; cbn [gost_mgm128_setiv m_alen m_mlen m_mres m_ares m_ACi m_sum length]; auto.
    - constructor.
    - exists 0. split; [lia|]. cbn [gost_mgm128_setiv m_nonce]. rewrite firstn_all2 by lia. apply clear_icn.
    - rewrite tail_short by (cbn; lia). reflexivity.
    - apply zeros_length.
    - apply bytes_zeros.
    - rewrite tail_short by (cbn; lia). reflexivity.
    - rewrite full_short by (cbn; lia). reflexivity.
  Qed.
  Lemma init_Z_Inv1 s c : Inv1 s c nil -> Inv1 true (init_Z E c) nil.
  Proof.
    pose proof bl_pos as P. intros (B & (b & Hb & Hn) & H1 & H2 & H3 & H4 & H5 & H6 & H7 & _). unfold init_Z.
    split; [exact B|]. split; [exists 1; cbn; split; [lia|]; rewrite Hn; apply set_with; auto|].
    do 7 (split; [assumption|]). rewrite full_short in * by (cbn; lia). split; [constructor|]. split.
    - cbn [m_w_Zi m_Zi m_nonce m_w_nonce length]. rewrite blocks_nil. cbn [length]. rewrite Zcnt_0, Hn, set_with by auto. reflexivity.
    - exact H7.
  Qed.
  Lemma Inv1_start s c A : Inv1 s c A -> Inv1 true (if m_alen c =? 0 then init_Z E c else c) A.
  Proof.
    intros I. pose proof I as (B & _ & H1 & _). destruct (N.eqb_spec (m_alen c) 0) as [e|ne].
    - rewrite H1 in e. assert (A = nil) by (destruct A; [auto|cbn in e; lia]). subst A. eapply init_Z_Inv1; eauto.
    - destruct s; auto. destruct I as (_ & _ & _ & _ & _ & _ & _ & _ & _ & ->). cbn in H1. congruence.
  Qed.

  Lemma aad_fill_spec aad : forall aci n, (0 < n < bl)%nat -> length aci = bl ->
    aad_fill bl aci n aad =
      if (n + length aad <? bl)%nat then (overwrite aci n aad, (n + length aad)%nat, nil)
      else (overwrite aci n (firstn (bl - n) aad), 0%nat, skipn (bl - n) aad).
  Proof.
    induction aad as [|x t IH]; intros aci n Hn L; cbn [aad_fill length].
    - destruct (Nat.ltb_spec (n + 0) bl); [|lia]. unfold overwrite. cbn [app length]. rewrite !Nat.add_0_r, firstn_skipn. reflexivity.
    - destruct (Nat.eqb_spec n 0); [lia|].
      assert (OW : forall l, (n + 1 + length l <= bl)%nat -> overwrite (set aci n x) (n + 1) l = overwrite aci n (x :: l)).
      { intros l Hl. unfold overwrite. replace (n + 1)%nat with (S n) by lia. rewrite firstn_succ_set by lia. cbn [app length].
        rewrite <- app_assoc. cbn [app]. f_equal. f_equal. f_equal. rewrite set_skipn_lt by lia. f_equal. lia. }
      destruct (Nat.eq_dec (n + 1) bl) as [e|ne].
      + rewrite e, Nat.mod_same by lia. replace (bl - n)%nat with 1%nat by lia. cbn [firstn skipn].
        destruct (Nat.ltb_spec (n + S (length t)) bl); [lia|]. 
        rewrite <- OW by (cbn; lia). unfold overwrite. cbn [app length]. rewrite !Nat.add_0_r, firstn_skipn.
        destruct t; reflexivity.
      + rewrite Nat.mod_small by lia. rewrite IH by (rewrite ?set_length; lia).
        replace (n + 1 + length t)%nat with (n + S (length t))%nat by lia.
        destruct (Nat.ltb_spec (n + S (length t)) bl).
        * rewrite OW by lia. reflexivity.
        * replace (bl - n)%nat with (S (bl - (n + 1))) by lia. cbn [firstn skipn]. rewrite OW by (rewrite firstn_length; lia). reflexivity.
  Qed.

  (** Whole blocks of [aad] after a prefix [A0] of whole blocks. *)
  Lemma aad_tail_spec c A0 aad : (length A0 mod bl = 0)%nat -> bytes A0 -> bytes aad -> AB c (blocks bl A0) ->
    nonce_ok c -> m_alen c = N.of_nat (length (A0 ++ aad)) -> m_mlen c = 0 -> m_mres c = 0%nat -> isblk (m_ACi c) ->
    Inv1 true (aad_tail bl E mul c aad) (A0 ++ aad).
  Proof.
    pose proof bl_pos as P. intros M B0 B H N1 H1 H2 H3 H4.
    assert (Fu : full bl (A0 ++ aad) = A0 ++ full bl aad) by (apply full_app; auto).
    assert (Ta : tail bl (A0 ++ aad) = tail bl aad) by (apply tail_app; auto).
    assert (BB : blocks bl (full bl (A0 ++ aad)) = blocks bl A0 ++ blocks bl (full bl aad)) by (rewrite Fu; apply blocks_app; auto).
    destruct (fold_absorb _ (full_blocks_blk aad B) c _ H) as [A R].
    unfold aad_tail. rewrite while_blocks_spec by auto.
    set (c1 := fold_left _ _ c) in *. clearbody c1. injection R as R1 R2 R3 R4 R5 R6 R7 R8.
    unfold Inv1, nonce_ok. rewrite BB, Ta. destruct A as (A1 & A2 & A3).
    destruct (tail bl aad) as [|x t] eqn:T; cbn -[firstn].
    - rewrite R1, R4, R5, R6, R7. split; [apply bytes_app; auto|]. do 5 (split; [solve [auto]|]). split; [exact H4|]. 
      split; [reflexivity|]. split; [exact A3|]. split; [exact A1|]. split; [exact A2|exact A3].
    - assert (LT : (length (tail bl aad) < bl)%nat) by (apply tail_lt; auto). rewrite T in LT. cbn [length] in LT.
      assert (BT : bytes (x :: t)) by (rewrite <- T; apply tail_bytes; auto).
      rewrite R1, R4, R5, R6, R7. split; [apply bytes_app; auto|]. do 5 (split; [solve [auto]|]).
      split; [apply blk_overwrite; auto; cbn; lia|]. split; [exact (overwrite_0_firstn (m_ACi c) (x :: t))|].
      split; [exact A3|]. split; [exact A1|]. split; [exact A2|exact A3].
  Qed.

  Theorem aad_step s c A d : Inv1 s c A -> bytes d ->
    N.of_nat (length A) + N.of_nat (length d) <= limit bl ->
    exists c', gost_mgm128_aad bl E mul c d = (0%Z, c') /\ Inv1 true c' (A ++ d).
  Proof.
    pose proof bl_pos as P. intros I Bd Hl. pose proof (Inv1_start s c A I) as J.
    unfold gost_mgm128_aad. destruct I as (_ & _ & _ & -> & _). cbn [N.eqb negb].
    set (c0 := if m_alen c =? 0 then init_Z E c else c) in *. clearbody c0.
    destruct J as (B & N1 & H1 & H2 & H3 & H4 & H5 & H6 & H7 & H8).
    assert (LL : limit bl <= 2 ^ 61) by (unfold limit; destruct Hbl as [e|e]; rewrite e; vm_compute; discriminate).
    rewrite H1, w64_small by (change 18446744073709551616 with (2 ^ 64); change (2 ^ 64) with (8 * 2 ^ 61); lia).
    destruct (N.ltb_spec (limit bl) (N.of_nat (length A) + N.of_nat (length d))); [lia|].
    destruct (N.ltb_spec (N.of_nat (length A) + N.of_nat (length d)) (N.of_nat (length d))); [lia|]. cbn [orb].
    change (m_ares (m_w_alen c0 _)) with (m_ares c0). change (m_ACi (m_w_alen c0 ?x)) with (m_ACi c0). rewrite H4.
    pose proof (tail_lt bl A P) as TL.
    destruct (Nat.eqb_spec (length (tail bl A)) 0) as [e|ne].
    - eexists. split; [reflexivity|]. 
      assert (TN : tail bl A = nil) by (destruct (tail bl A); [auto|discriminate]).
      assert (FA : full bl A = A) by (rewrite <- (full_tail bl A) at 2; rewrite TN, app_nil_r; auto).
      apply aad_tail_spec; auto.
      + rewrite <- FA. apply full_mod; auto.
      + rewrite FA in H8. exact H8.
      + cbn. rewrite app_length. lia.
    - rewrite aad_fill_spec by (destruct H5; lia).
      set (n := length (tail bl A)) in *.
      assert (AD : A = full bl A ++ tail bl A) by (symmetry; apply full_tail).
      destruct (Nat.ltb_spec (n + length d) bl).
      + destruct (Nat.eqb_spec (n + length d) 0); [lia|]. eexists. split; [reflexivity|].
        assert (C : full bl (A ++ d) = full bl A /\ tail bl (A ++ d) = tail bl A ++ d).
        { rewrite AD at 1 3. rewrite <- app_assoc. apply cut_unique; auto; [apply full_mod; auto|rewrite app_length; lia]. }
        destruct C as [C1 C2]. unfold Inv1, nonce_ok. rewrite C1, C2. cbn -[firstn].
        split; [apply bytes_app; auto|]. split; [exact N1|]. split; [rewrite app_length; lia|]. split; [exact H2|]. split; [exact H3|].
        split; [rewrite app_length; reflexivity|]. split; [apply blk_overwrite; auto; lia|].
        split; [|split; [exact H7|exact H8]]. 
        unfold overwrite. rewrite app_assoc. rewrite firstn_app_exact; [f_equal; rewrite H4 in H6; exact H6|].
        rewrite app_length, firstn_length. destruct H5. lia.
      + cbn [Nat.eqb]. eexists. split; [reflexivity|]. 
        set (d1 := firstn (bl - n) d). assert (Ld1 : length d1 = (bl - n)%nat) by (unfold d1; rewrite firstn_length; lia).
        assert (BA : overwrite (m_ACi c0) n d1 = tail bl A ++ d1).
        { destruct H5. rewrite H4 in H6. unfold overwrite. rewrite H6, Ld1, skipn_all2, app_nil_r by lia. reflexivity. }
        assert (BK : isblk (tail bl A ++ d1)).
        { split; [rewrite app_length; lia|]. apply bytes_app; [apply tail_bytes; auto|apply bytes_firstn; auto]. }
        assert (SP : A ++ d = (full bl A ++ tail bl A ++ d1) ++ skipn (bl - n) d).
        { rewrite AD at 1. rewrite <- !app_assoc. do 2 f_equal. symmetry. apply firstn_skipn. }
        rewrite SP. apply aad_tail_spec.
        * rewrite app_length. destruct BK as [LB _]. rewrite LB. rewrite Nat.add_mod, full_mod, Nat.mod_same by lia. apply Nat.mod_0_l; lia.
        * apply bytes_app; [apply bytes_firstn; auto|apply BK].
        * apply bytes_skipn; auto.
        * rewrite blocks_app by (auto; apply full_mod; auto). 
          replace (blocks bl (tail bl A ++ d1)) with [tail bl A ++ d1].
          2:{ symmetry. destruct BK as [LB _]. apply blocks_short; auto; [|lia]. intros C. rewrite C in LB. cbn in LB. lia. }
          cbn [m_ACi m_w_ACi]. rewrite BA. apply absorb_AB; auto. 
        * exact N1.
        * cbn. rewrite <- SP, app_length. lia.
        * exact H2.
        * exact H3.
        * cbn [absorb m_ACi m_w_ACi m_w_sum m_w_Zi]. rewrite BA. exact BK.
  Qed.

  (** ** Data *)
  Definition kb (j : nat) : N := nth (j mod bl) (E (Ycnt bl E icn (j / bl))) 0.
  Fixpoint xks (j : nat) (l : list N) : list N :=
    match l with nil => nil | x :: t => N.lxor x (kb j) :: xks (S j) t end.
  Lemma xks_length l : forall j, length (xks j l) = length l.
  Proof. induction l; intros; cbn; auto. Qed.
  Lemma xks_app a b : forall j, xks j (a ++ b) = xks j a ++ xks (j + length a) b.
  Proof.
    induction a as [|x a IH]; intros j; cbn [xks app length]; [rewrite Nat.add_0_r; reflexivity|].
    rewrite IH. do 3 f_equal. lia.
  Qed.
  Lemma xks_invol l : forall j, xks j (xks j l) = l.
  Proof. induction l as [|x l IH]; intros j; cbn [xks]; [reflexivity|]. rewrite lxor_cancel_r, IH. reflexivity. Qed.
  Lemma kb_byte j : kb j < 256.
  Proof. unfold kb. apply bytes_nth. apply HE, Ycnt_blk. Qed.
  Lemma xks_bytes l : bytes l -> forall j, bytes (xks j l).
  Proof.
    induction 1 as [|x l Hx _ IH]; intros j; cbn [xks]; [constructor|]. constructor; [|apply IH]. apply lxor_byte; [exact Hx|apply kb_byte].
  Qed.
  Lemma xks_block b i : (length b <= bl)%nat -> xks (i * bl) b = xorl b (E (Ycnt bl E icn i)).
  Proof.
    pose proof bl_pos as P. intros Hb. set (K := E (Ycnt bl E icn i)).
    assert (LK : length K = bl) by apply HE, Ycnt_blk.
    assert (G : forall b n, (n + length b <= bl)%nat -> xks (i * bl + n) b = xorl b (skipn n K)).
    { clear b Hb. induction b as [|x b IH]; intros n Hn; [reflexivity|]. cbn [length] in Hn. cbn [xks].
      rewrite (skipn_cons_nth K n) by lia. cbn [xorl].
      replace (S (i * bl + n)) with (i * bl + S n)%nat by lia. rewrite IH by lia. f_equal. f_equal. unfold kb.
      rewrite Nat.add_comm, Nat.mod_add, Nat.mod_small by lia. rewrite Nat.div_add, Nat.div_small by lia. reflexivity. }
    specialize (G b 0%nat ltac:(lia)). rewrite Nat.add_0_r in G. exact G.
  Qed.
  Lemma crypt_spec_xks m : mgm_crypt_spec bl E icn m = xks 0 m.
  Proof.
    pose proof bl_pos as P. unfold mgm_crypt_spec.
    assert (G : forall m i, ctr_blocks bl E icn i (blocks bl m) = xks (i * bl) m).
    { clear m. intros m. induction m as [l Hl|a l Ha IH] using (blocks_ind bl P); intros i.
      - destruct l as [|x l]; [reflexivity|]. rewrite (blocks_short bl (x :: l) P ltac:(discriminate) ltac:(lia)).
        cbn [ctr_blocks]. rewrite app_nil_r, xks_block by lia. reflexivity.
      - rewrite blocks_cons by auto. cbn [ctr_blocks]. rewrite IH, xks_app. rewrite (xks_block a i) by lia. rewrite Ha. replace (S i * bl)%nat with (i * bl + bl)%nat by lia. reflexivity. }
    apply (G m 0%nat).
  Qed.
  Definition BI (c : mgm) (pre : list (list N)) (C : list N) : Prop :=
    bytes C /\ AB c (pre ++ blocks bl (full bl C)) /\ m_mres c = length (tail bl C) /\ m_ares c = 0%nat /\
    isblk (m_ACi c) /\ firstn (m_mres c) (m_ACi c) = tail bl C /\
    m_Yi c = Ycnt bl E icn (length C / bl + (if (m_mres c =? 0)%nat then 0 else 1)) /\
    (m_mres c <> 0%nat -> m_EKi c = E (Ycnt bl E icn (length C / bl))).
  Definition rest2 (c : mgm) := (m_nonce c, m_alen c, m_mlen c).
  Lemma byte_step dec c pre C x : BI c pre C -> x < 256 ->
    let (c', o) := mgm_byte bl E mul dec c x in
    o = N.lxor x (kb (length C)) /\ BI c' pre (C ++ [if dec then x else o]) /\ rest2 c' = rest2 c.
  Proof.
    pose proof bl_pos as P. intros (BC & HA & H1 & H2 & H3 & H4 & H5 & H6) Hx. unfold mgm_byte.
    pose proof (tail_lt bl C P) as TL. rewrite H1 in *. rewrite (Nat.mod_small _ _ TL).
    set (n := length (tail bl C)) in *.
    assert (Ln : (length C mod bl = n)%nat) by (unfold n; rewrite tail_length; auto).
    set (c1 := if (n =? 0)%nat then m_w_Yi (m_w_EKi c (E (m_Yi c))) (incr_r bl (m_Yi c)) else c).
    assert (K : m_EKi c1 = E (Ycnt bl E icn (length C / bl)) /\ m_Yi c1 = Ycnt bl E icn (length C / bl + 1) /\
                AB c1 (pre ++ blocks bl (full bl C)) /\ m_ares c1 = 0%nat /\ m_ACi c1 = m_ACi c /\ rest2 c1 = rest2 c).
    { unfold c1. destruct (Nat.eqb_spec n 0) as [e|ne].
      - cbn [m_EKi m_Yi m_w_Yi m_w_EKi m_ares m_ACi]. rewrite H5, Nat.add_0_r, incr_r_Y.
        split; [reflexivity|]. split; [f_equal; lia|]. repeat split; auto; apply HA.
      - split; [apply H6; lia|]. split; [exact H5|]. repeat split; auto; apply HA. }
    clearbody c1. destruct K as (K1 & K2 & K3 & K4 & K5 & K6).
    set (o := N.lxor x (nth n (m_EKi c1) 0)).
    assert (Ho : o = N.lxor x (kb (length C))) by (unfold o, kb; rewrite K1, Ln; reflexivity).
    assert (Bo : o < 256) by (rewrite Ho; apply lxor_byte; [exact Hx|apply kb_byte]).
    set (y := if dec then x else o). assert (By : y < 256) by (unfold y; destruct dec; auto). clearbody y.
    split; [exact Ho|]. clear Ho. rewrite K5. cbn [m_w_mres m_w_ACi m_ACi].
    assert (LA : length (m_ACi c) = bl) by apply H3.
    assert (BA : isblk (set (m_ACi c) n y)).
    { split; [rewrite set_length; auto|]. destruct H3 as [_ B3]. clear - B3 By. generalize (m_ACi c), n, B3. intros l. induction l as [|z l IH]; intros k B; [destruct k; constructor|].
      inversion B; subst. destruct k; cbn [set]; constructor; auto. apply IH; auto. }
    assert (FA : firstn (S n) (set (m_ACi c) n y) = tail bl C ++ [y]).
    { rewrite firstn_succ_set by lia. rewrite H4. reflexivity. }
    assert (BCy : bytes (C ++ [y])) by (apply bytes_app; auto; constructor; auto; constructor).
    assert (CD : C ++ [y] = full bl C ++ tail bl C ++ [y]) by (rewrite app_assoc, full_tail; reflexivity).
    assert (LCy : length (C ++ [y]) = S (length C)) by (rewrite app_length; cbn; lia).
    pose proof (Nat.div_mod (length C) bl ltac:(lia)) as DM. rewrite Ln in DM.
    destruct (Nat.eq_dec (n + 1) bl) as [e|ne].
    - rewrite e, Nat.mod_same by lia. cbn [Nat.eqb].
      assert (LT : length (tail bl C ++ [y]) = bl) by (rewrite app_length; cbn [length]; lia).
      assert (Fu : full bl (C ++ [y]) = C ++ [y] /\ tail bl (C ++ [y]) = nil).
      { apply full_exact; auto. rewrite LCy, DM. replace (S (bl * (length C / bl) + n)) with ((length C / bl + 1) * bl)%nat by nia.
        apply Nat.mod_mul. lia. }
      destruct Fu as [F1 F2]. split; [|exact K6].
      assert (SA : set (m_ACi c) n y = tail bl C ++ [y]).
      { rewrite <- FA. symmetry. apply firstn_all2. rewrite set_length. lia. }
      assert (Dv : (length (C ++ [y]) / bl = length C / bl + 1)%nat).
      { rewrite LCy, DM at 1. replace (S (bl * (length C / bl) + n)) with ((length C / bl + 1) * bl)%nat by nia. apply Nat.div_mul. lia. }
      unfold BI. rewrite F1, F2. split; [exact BCy|]. split.
      { rewrite CD. rewrite blocks_app by (auto; apply full_mod; auto).
        replace (blocks bl (tail bl C ++ [y])) with [tail bl C ++ [y]].
        2:{ symmetry. apply blocks_short; auto; [|lia]. intros Q. rewrite Q in LT. cbn in LT. lia. }
        rewrite app_assoc, SA. apply absorb_AB; [|rewrite <- SA; exact BA].
        destruct K3 as (G1 & G2 & G3). split; [exact G1|]. split; [exact G2|exact G3]. }
      split; [reflexivity|]. split; [exact K4|]. split; [exact BA|]. split; [reflexivity|].
      split; [|intros Q; exfalso; apply Q; reflexivity].
      cbn [absorb m_mres m_w_mres m_w_sum m_w_Zi Nat.eqb m_Yi m_w_ACi]. rewrite Nat.add_0_r, Dv. exact K2.
    - rewrite Nat.mod_small by lia. destruct (Nat.eqb_spec (n + 1) 0); [lia|]. split; [|exact K6].
      assert (Cu : full bl (C ++ [y]) = full bl C /\ tail bl (C ++ [y]) = tail bl C ++ [y]).
      { rewrite CD. apply cut_unique; auto; [apply full_mod; auto|rewrite app_length; cbn [length]; lia]. }
      destruct Cu as [F1 F2]. 
      assert (Dv : (length (C ++ [y]) / bl = length C / bl)%nat).
      { rewrite LCy. symmetry. apply Nat.div_unique with (r := S n); [lia|]. lia. }
      unfold BI. rewrite F1, F2, Dv. split; [exact BCy|]. split.
      { destruct K3 as (G1 & G2 & G3). split; [exact G1|]. split; [exact G2|exact G3]. }
      cbn [m_mres m_w_mres m_ares m_w_ACi m_ACi m_Yi m_EKi]. split; [rewrite app_length; reflexivity|].
      split; [exact K4|]. split; [exact BA|]. split; [replace (n + 1)%nat with (S n) by lia; exact FA|].
      destruct (Nat.eqb_spec (n + 1) 0); [lia|]. split; [exact K2|]. intros _. exact K1.
  Qed.
  Lemma bytes_step dec inp : bytes inp -> forall c pre C, BI c pre C ->
    let (c', out) := mgm_bytes bl E mul dec c inp in
    out = xks (length C) inp /\ BI c' pre (C ++ (if dec then inp else out)) /\ rest2 c' = rest2 c.
  Proof.
    induction 1 as [|x t Hx _ IH]; intros c pre C H; cbn [mgm_bytes].
    - split; [reflexivity|]. split; [destruct dec; rewrite app_nil_r; exact H|reflexivity].
    - pose proof (byte_step dec c pre C x H Hx) as S1. destruct (mgm_byte bl E mul dec c x) as [c1 o]. destruct S1 as (Ho & H1 & R1).
      specialize (IH c1 pre _ H1). destruct (mgm_bytes bl E mul dec c1 t) as [c2 out]. destruct IH as (Hout & H2 & R2).
      rewrite app_length in Hout. cbn [length] in Hout. rewrite Nat.add_1_r in Hout.
      split; [cbn [xks]; rewrite Ho, Hout; reflexivity|]. split; [|congruence].
      rewrite <- app_assoc in H2. destruct dec; exact H2.
  Qed.

  Lemma padded_split A : padded bl A = blocks bl (full bl A) ++
    match tail bl A with nil => nil | t => [t ++ zeros (bl - length t)] end.
  Proof.
    pose proof bl_pos as P. unfold padded. rewrite <- (full_tail bl A) at 1.
    rewrite blocks_app by (auto; apply full_mod; auto). rewrite map_app. f_equal.
    - pose proof (blocks_all_full bl (full bl A) P (full_mod bl A P)) as F. induction F as [|b bs Hb _ IH]; [reflexivity|].
      cbn [map]. rewrite IH, Hb, Nat.sub_diag. cbn [zeros]. unfold zeros. cbn [repeat]. rewrite app_nil_r. reflexivity.
    - pose proof (tail_lt bl A P) as L. destruct (tail bl A) as [|x t]; [reflexivity|].
      assert (X : blocks bl (x :: t) = [x :: t]) by (apply blocks_short; [exact P|discriminate|lia]). rewrite X. reflexivity.
  Qed.
  Definition rest3 (c : mgm) := (m_nonce c, m_Yi c, m_EKi c, m_alen c, m_mlen c, m_mres c).
  Lemma flush_spec c A : bytes A -> AB c (blocks bl (full bl A)) -> m_ares c = length (tail bl A) -> isblk (m_ACi c) ->
    firstn (m_ares c) (m_ACi c) = tail bl A ->
    AB (flush_aad bl E mul c) (padded bl A) /\ m_ares (flush_aad bl E mul c) = 0%nat /\ isblk (m_ACi (flush_aad bl E mul c)) /\
    rest3 (flush_aad bl E mul c) = rest3 c.
  Proof.
    pose proof bl_pos as P. intros BA HA H1 H2 H3. rewrite padded_split. unfold flush_aad. pose proof (tail_lt bl A P) as L.
    rewrite H1 in *. destruct (tail bl A) as [|x t] eqn:T.
    - cbn [length Nat.eqb]. rewrite app_nil_r. repeat split; auto; try apply HA; apply H2.
    - set (n := length (x :: t)) in *. destruct (Nat.eqb_spec n 0) as [e|ne]; [discriminate|].
      assert (OV : overwrite (m_ACi c) n (zeros (bl - n)) = (x :: t) ++ zeros (bl - n)).
      { unfold overwrite. rewrite H3, zeros_length, skipn_all2, app_nil_r by (destruct H2; lia). reflexivity. }
      assert (BK : isblk ((x :: t) ++ zeros (bl - n))).
      { split; [rewrite app_length, zeros_length; fold n; lia|]. apply bytes_app; [rewrite <- T; apply tail_bytes; auto|apply bytes_zeros]. }
      split; [|split; [reflexivity|split; [|reflexivity]]].
      + cbn [m_ACi m_w_ACi]. rewrite OV. destruct (absorb_AB (m_w_ACi c ((x :: t) ++ zeros (bl - n))) _ _ HA BK) as (G1 & G2 & G3).
        split; [exact G1|]. split; [exact G2|exact G3].
      + cbn [absorb m_ACi m_w_ACi m_w_ares m_w_sum m_w_Zi]. rewrite OV. exact BK.
  Qed.

  (** The state after the data [C] (ciphertext) following the associated data [A]. *)
  Definition Inv2 (c : mgm) (A C : list N) : Prop :=
    bytes A /\ nonce_ok c /\ m_alen c = N.of_nat (length A) /\ m_mlen c = N.of_nat (length C) /\ BI c (padded bl A) C.
  Lemma limit_le : limit bl <= 2 ^ 61.
  Proof. unfold limit; destruct Hbl as [e|e]; rewrite e; vm_compute; discriminate. Qed.
  Lemma crypt_ok dec c (C A inp : list N) : m_mlen c = N.of_nat (length C) -> m_alen c = N.of_nat (length A) ->
    N.of_nat (length A) + N.of_nat (length C) + N.of_nat (length inp) <= limit bl ->
    mgm_crypt bl E mul dec c inp =
      let (c', out) := mgm_bytes bl E mul dec (flush_aad bl E mul (m_w_mlen c (N.of_nat (length C + length inp)))) inp in (0%Z, c', out).
  Proof.
    intros H1 H2 Hl. pose proof limit_le as LL. unfold mgm_crypt. rewrite H1, H2.
    assert (B : forall x, x <= limit bl -> w64 x = x).
    { intros x Hx. apply w64_small. change 18446744073709551616 with (8 * 2 ^ 61). lia. }
    rewrite !B by (rewrite ?B; lia). 
    destruct (N.ltb_spec (limit bl) (N.of_nat (length C) + N.of_nat (length inp))); [lia|].
    destruct (N.ltb_spec (N.of_nat (length C) + N.of_nat (length inp)) (N.of_nat (length inp))); [lia|].
    destruct (N.ltb_spec (limit bl) (N.of_nat (length C) + N.of_nat (length inp) + N.of_nat (length A))); [lia|]. cbn [orb].
    rewrite <- Nat2N.inj_add. reflexivity.
  Qed.
  Lemma crypt_from_Inv1 dec c A inp : Inv1 true c A -> m_Yi c = Ycnt bl E icn 0 -> bytes inp ->
    N.of_nat (length A) + N.of_nat (length inp) <= limit bl ->
    exists c', mgm_crypt bl E mul dec c inp = (0%Z, c', xks 0 inp) /\ Inv2 c' A (if dec then inp else xks 0 inp).
  Proof.
    pose proof bl_pos as P. intros (B & N1 & H1 & H2 & H3 & H4 & H5 & H6 & _ & H8) HY Bi Hl.
    rewrite (crypt_ok dec c nil A inp) by (auto; cbn [length]; lia).
    destruct (flush_spec (m_w_mlen c (N.of_nat (length (@nil N) + length inp))) A B H8 H4 H5 H6) as (G1 & G2 & G3 & G4).
    set (c1 := flush_aad bl E mul _) in *. clearbody c1. cbn in G4. injection G4 as R1 R2 R3 R4 R5 R6.
    assert (BIc : BI c1 (padded bl A) nil).
    { unfold BI. rewrite full_short, tail_short by (cbn; lia). cbn [length]. rewrite blocks_nil, app_nil_r, R6, H3.
      split; [constructor|]. split; [exact G1|]. split; [reflexivity|]. split; [exact G2|]. split; [exact G3|].
      split; [reflexivity|]. split; [|intros Q; exfalso; apply Q; reflexivity].
      cbn [Nat.eqb]. rewrite Nat.div_0_l, R2 by lia. exact HY. }
    pose proof (bytes_step dec inp Bi c1 _ _ BIc) as S1. destruct (mgm_bytes bl E mul dec c1 inp) as [c2 out].
    destruct S1 as (-> & H7 & R). cbn [length app] in *. exists c2. split; [reflexivity|].
    injection R as Q1 Q2 Q3. split; [exact B|]. split; [unfold nonce_ok; rewrite Q1, R1; exact N1|].
    split; [congruence|]. split; [|exact H7]. rewrite Q3, R5. destruct dec; [reflexivity|rewrite xks_length; reflexivity].
  Qed.
  Lemma crypt_from_Inv2 dec c A C inp : Inv2 c A C -> bytes inp ->
    N.of_nat (length A) + N.of_nat (length C) + N.of_nat (length inp) <= limit bl ->
    exists c', mgm_crypt bl E mul dec c inp = (0%Z, c', xks (length C) inp) /\
      Inv2 c' A (C ++ (if dec then inp else xks (length C) inp)).
  Proof.
    intros (B & N1 & H1 & H2 & H3) Bi Hl. rewrite (crypt_ok dec c C A inp) by auto.
    assert (F : flush_aad bl E mul (m_w_mlen c (N.of_nat (length C + length inp))) = m_w_mlen c (N.of_nat (length C + length inp))).
    { unfold flush_aad. destruct H3 as (_ & _ & _ & Ar & _). cbn [m_ares m_w_mlen]. rewrite Ar. reflexivity. }
    rewrite F.
    assert (BIc : BI (m_w_mlen c (N.of_nat (length C + length inp))) (padded bl A) C) by exact H3.
    pose proof (bytes_step dec inp Bi _ _ _ BIc) as S1. destruct (mgm_bytes bl E mul dec _ inp) as [c2 out].
    destruct S1 as (-> & H7 & R). exists c2. split; [reflexivity|]. injection R as Q1 Q2 Q3.
    split; [exact B|]. split; [unfold nonce_ok; rewrite Q1; exact N1|]. split; [congruence|]. split; [|exact H7].
    rewrite Q3. rewrite app_length. destruct dec; [reflexivity|rewrite xks_length; reflexivity].
  Qed.
  Lemma init_Y_Inv1 s c A : Inv1 s c A -> Inv1 s (init_Y E c) A /\ m_Yi (init_Y E c) = Ycnt bl E icn 0.
  Proof.
    intros (B & (b & Hb & Hn) & H1 & H2 & H3 & H4 & H5 & H6 & H7 & H8). unfold init_Y. split.
    - split; [exact B|]. split; [exists 0; cbn; split; [lia|]; rewrite Hn; apply clear_with; auto|].
      do 7 (split; [assumption|]). destruct s; auto.
    - cbn [m_Yi m_w_Yi m_nonce m_w_nonce]. rewrite Hn, clear_with, Ycnt_0 by auto. reflexivity.
  Qed.
  (** The re-initialisation when no data has been seen yet changes nothing. *)
  Lemma padded_nil : padded bl nil = nil. Proof. reflexivity. Qed.
  Lemma init_Y_Inv2 c A : Inv2 c A nil -> Inv2 (init_Y E c) A nil.
  Proof.
    pose proof bl_pos as P. intros (B & (b & Hb & Hn) & H1 & H2 & (I1 & I2 & I3 & I4 & I5 & I6 & I7 & I8)). split; [exact B|].
    split; [exists 0; cbn; split; [lia|]; rewrite Hn; apply clear_with; auto|]. split; [exact H1|]. split; [exact H2|].
    split; [exact I1|]. split; [exact I2|]. split; [exact I3|]. split; [exact I4|]. split; [exact I5|]. split; [exact I6|].
    rewrite tail_short in I3 by (cbn; lia). cbn [length] in *.
    split; [|intros Q; exfalso; apply Q; exact I3].
    cbn [init_Y m_Yi m_w_Yi m_nonce m_w_nonce m_mres]. rewrite I3, Hn, clear_with, Nat.div_0_l by (auto; lia). cbn [Nat.eqb Nat.add].
    rewrite Ycnt_0. reflexivity.
  Qed.
  Lemma init_Z_Inv2 c : Inv2 c nil nil -> Inv2 (init_Z E c) nil nil.
  Proof.
    pose proof bl_pos as P. intros (B & (b & Hb & Hn) & H1 & H2 & (I1 & I2 & I3 & I4 & I5 & I6 & I7 & I8)). split; [exact B|].
    split; [exists 1; cbn; split; [lia|]; rewrite Hn; apply set_with; auto|]. split; [exact H1|]. split; [exact H2|].
    split; [exact I1|]. split; [|split; [exact I3|]; split; [exact I4|]; split; [exact I5|]; split; [exact I6|]; split; [exact I7|exact I8]].
    rewrite full_short, padded_nil in * by (cbn; lia). rewrite blocks_nil in *. cbn [app] in *.
    destruct I2 as (A1 & A2 & A3). split; [exact A1|]. split; [|exact A3].
    cbn [init_Z m_Zi m_w_Zi m_nonce m_w_nonce length]. rewrite Hn, set_with, Zcnt_0 by auto. reflexivity.
  Qed.

  (** *** One call *)
  Theorem encrypt_first s c A inp : Inv1 s c A -> bytes inp ->
    N.of_nat (length A) + N.of_nat (length inp) <= limit bl ->
    exists c', gost_mgm128_encrypt bl E mul c inp = (0%Z, c', xks 0 inp) /\ Inv2 c' A (xks 0 inp).
  Proof.
    intros I Bi Hl. unfold gost_mgm128_encrypt. pose proof I as (_ & _ & _ & -> & _). cbn [N.eqb].
    destruct (init_Y_Inv1 true _ A (Inv1_start s c A I)) as [J HY].
    destruct (crypt_from_Inv1 false _ A inp J HY Bi Hl) as (c' & E1 & I'). exists c'. auto.
  Qed.
  Theorem encrypt_next c A C inp : Inv2 c A C -> bytes inp ->
    N.of_nat (length A) + N.of_nat (length C) + N.of_nat (length inp) <= limit bl ->
    exists c', gost_mgm128_encrypt bl E mul c inp = (0%Z, c', xks (length C) inp) /\ Inv2 c' A (C ++ xks (length C) inp).
  Proof.
    intros I Bi Hl. unfold gost_mgm128_encrypt.
    set (c1 := if m_mlen c =? 0 then init_Y E (if m_alen c =? 0 then init_Z E c else c) else c).
    assert (J : Inv2 c1 A C).
    { unfold c1. pose proof I as (_ & _ & H1 & H2 & _). destruct (N.eqb_spec (m_mlen c) 0) as [e|]; [|exact I].
      assert (C = nil) by (destruct C; [auto|rewrite H2 in e; cbn in e; lia]). subst C. apply init_Y_Inv2.
      destruct (N.eqb_spec (m_alen c) 0) as [e2|]; [|exact I].
      assert (A = nil) by (destruct A; [auto|rewrite H1 in e2; cbn in e2; lia]). subst A. apply init_Z_Inv2. exact I. }
    destruct (crypt_from_Inv2 false c1 A C inp J Bi Hl) as (c' & E1 & I'). exists c'. auto.
  Qed.
  Theorem decrypt_first c A inp : Inv1 true c A -> bytes inp ->
    N.of_nat (length A) + N.of_nat (length inp) <= limit bl ->
    exists c', gost_mgm128_decrypt bl E mul c inp = (0%Z, c', xks 0 inp) /\ Inv2 c' A inp.
  Proof.
    intros I Bi Hl. unfold gost_mgm128_decrypt. pose proof I as (_ & _ & _ & -> & _). cbn [N.eqb].
    destruct (init_Y_Inv1 true _ A I) as [J HY].
    destruct (crypt_from_Inv1 true _ A inp J HY Bi Hl) as (c' & E1 & I'). exists c'. auto.
  Qed.
  Theorem decrypt_next c A C inp : Inv2 c A C -> bytes inp ->
    N.of_nat (length A) + N.of_nat (length C) + N.of_nat (length inp) <= limit bl ->
    exists c', gost_mgm128_decrypt bl E mul c inp = (0%Z, c', xks (length C) inp) /\ Inv2 c' A (C ++ inp).
  Proof.
    intros I Bi Hl. unfold gost_mgm128_decrypt.
    set (c1 := if m_mlen c =? 0 then init_Y E c else c).
    assert (J : Inv2 c1 A C).
    { unfold c1. pose proof I as (_ & _ & H1 & H2 & _). destruct (N.eqb_spec (m_mlen c) 0) as [e|]; [|exact I].
      assert (C = nil) by (destruct C; [auto|rewrite H2 in e; cbn in e; lia]). subst C. apply init_Y_Inv2. exact I. }
    destruct (crypt_from_Inv2 true c1 A C inp J Bi Hl) as (c' & E1 & I'). exists c'. auto.
  Qed.

  (** ** The tag *)
  Lemma shl3 x : x < 2 ^ 61 -> w64 (N.shiftl x 3) = 8 * x.
  Proof.
    intros H. rewrite N.shiftl_mul_pow2. change (2 ^ 3) with 8. rewrite w64_small; [lia|].
    change 18446744073709551616 with (8 * 2 ^ 61). lia.
  Qed.
  Lemma lor_add a b : a < 2 ^ 32 -> N.lor a (2 ^ 32 * b) = a + 2 ^ 32 * b.
  Proof.
    intros H. assert (D : N.land a (2 ^ 32 * b) = 0).
    { apply N.bits_inj. intros m. rewrite N.land_spec, N.bits_0, N.mul_comm. destruct (N.lt_ge_cases m 32).
      - rewrite N.mul_pow2_bits_low by auto. apply andb_false_r.
      - rewrite (lt_pow2_high a 32) by auto. reflexivity. }
    rewrite <- N.lxor_lor by exact D. symmetry. apply N.add_nocarry_lxor. exact D.
  Qed.
  Lemma n2be_8_small x : x < 2 ^ 32 -> n2be 8 x = zeros 4 ++ n2be 4 x.
  Proof.
    intros H. apply be2n_inj; [apply n2be_bytes|apply bytes_app; [apply bytes_zeros|apply n2be_bytes]|rewrite n2be_length; reflexivity|].
    rewrite be2n_app, n2be_length, !be2n_n2be. rewrite !N.mod_small; [reflexivity|exact H|].
    change (256 ^ N.of_nat 8) with (2 ^ 32 * 2 ^ 32). nia.
  Qed.
  Lemma bswap_small x : x < 2 ^ 32 -> bswap64 x = 2 ^ 32 * le2n (n2be 4 x).
  Proof.
    intros H. unfold bswap64. change (be2n (n2le 8 x)) with (le2n (n2be 8 x)). rewrite n2be_8_small by auto.
    rewrite le2n_app. change (le2n (zeros 4)) with 0. reflexivity.
  Qed.
  Lemma len_block_spec A C : mgm_lengths_ok bl A C ->
    len_block bl le (w64 (N.shiftl (N.of_nat (length A)) 3)) (w64 (N.shiftl (N.of_nat (length C)) 3)) = lengths bl A C.
  Proof.
    unfold mgm_lengths_ok, len_block, lengths. generalize (N.of_nat (length A)), (N.of_nat (length C)). intros a c.
    destruct Hbl as [e|e]; rewrite e.
    - cbn [Nat.eqb N.of_nat]. change (8 / 2)%nat with 4%nat. change (8 - 4)%nat with 4%nat. change (2 ^ (4 * N.pos (Pos.of_succ_nat 7))) with (2 ^ 32).
      intros H. rewrite !shl3 by (change (2 ^ 61) with (2 ^ 29 * 2 ^ 32); lia).
      assert (Ha : 8 * a < 2 ^ 32) by lia. assert (Hc : 8 * c < 2 ^ 32) by lia.
      set (x := 8 * a) in *. set (y := 8 * c) in *. clearbody x y.
      assert (LX : le2n (n2be 4 x) < 2 ^ 32) by (pose proof (le2n_lt _ (n2be_bytes 4 x)) as L; rewrite n2be_length in L; exact L).
      destruct le.
      + rewrite !bswap_small by auto. rewrite N.shiftr_div_pow2, N.mul_comm, N.div_mul by discriminate.
        rewrite (N.mul_comm (le2n (n2be 4 x))) || idtac. rewrite lor_add by exact LX.
        replace (le2n (n2be 4 x) + 2 ^ 32 * le2n (n2be 4 y)) with (le2n (n2be 4 x ++ n2be 4 y)) by (rewrite le2n_app, n2be_length; reflexivity).
        apply n2le_le2n; [apply bytes_app; apply n2be_bytes|rewrite app_length, !n2be_length; reflexivity].
      + rewrite N.shiftl_mul_pow2, w64_small by (change 18446744073709551616 with (2 ^ 32 * 2 ^ 32); nia).
        rewrite N.lor_comm, (N.mul_comm x), lor_add by exact Hc.
        replace (y + 2 ^ 32 * x) with (be2n (n2be 4 x ++ n2be 4 y)).
        2:{ rewrite be2n_app, n2be_length, !be2n_n2be, !N.mod_small by auto. change (256 ^ N.of_nat 4) with (2 ^ 32). lia. }
        apply n2be_be2n; [apply bytes_app; apply n2be_bytes|rewrite app_length, !n2be_length; reflexivity].
    - cbn [Nat.eqb N.of_nat]. change (16 / 2)%nat with 8%nat. change (16 - 8)%nat with 8%nat. change (2 ^ (4 * N.pos (Pos.of_succ_nat 15))) with (2 ^ 64).
      intros H. change (2 ^ 64) with (8 * 2 ^ 61) in H. rewrite !shl3 by lia.
      rewrite !st64_be by (change (2 ^ 64) with (8 * 2 ^ 61); lia). reflexivity.
  Qed.
  Lemma padded_blk A : bytes A -> Forall isblk (padded bl A).
  Proof.
    intros B. pose proof bl_pos as P. rewrite padded_split. apply Forall_app. split; [apply full_blocks_blk; auto|].
    pose proof (tail_lt bl A P) as L. pose proof (tail_bytes A B) as T. destruct (tail bl A) as [|x t]; [constructor|].
    constructor; [|constructor]. split; [rewrite app_length, zeros_length; lia|apply bytes_app; [exact T|apply bytes_zeros]].
  Qed.
  Lemma lengths_blk A C : isblk (lengths bl A C).
  Proof. pose proof half. split; [unfold lengths; rewrite app_length, !n2be_length; lia|apply bytes_app; apply n2be_bytes]. Qed.
  (** What [mgm_finish] computes once the message is [pre] and [r] bytes are pending in [ACi]. *)
  Lemma finish_AB c A C pre T : AB c pre -> m_alen c = N.of_nat (length A) -> m_mlen c = N.of_nat (length C) -> mgm_lengths_ok bl A C ->
    (m_ares c + m_mres c = length T)%nat -> (length T < bl)%nat -> bytes T -> isblk (m_ACi c) -> firstn (length T) (m_ACi c) = T ->
    snd (mgm_finish bl le E mul c) =
      E (multilinear bl E mul icn 0 (pre ++ match T with nil => nil | _ => [T ++ zeros (bl - length T)] end ++ [lengths bl A C])).
  Proof.
    intros HA H1 H2 HL HT LT BT HC HF. unfold mgm_finish. rewrite H1, H2, len_block_spec by auto. rewrite HT.
    set (c1 := if (length T =? 0)%nat then c else _).
    assert (HA1 : AB c1 (pre ++ match T with nil => nil | _ => [T ++ zeros (bl - length T)] end)).
    { unfold c1. destruct T as [|x t]; cbn [length Nat.eqb]; [rewrite app_nil_r; exact HA|].
      change (S (length t)) with (length (x :: t)) in *.
      assert (OV : overwrite (m_ACi c) (length (x :: t)) (zeros (bl - length (x :: t))) = (x :: t) ++ zeros (bl - length (x :: t))).
      { unfold overwrite. rewrite HF, zeros_length, skipn_all2, app_nil_r by (destruct HC; lia). reflexivity. }
      cbn [m_ACi m_w_ACi]. rewrite OV. apply absorb_AB; [exact HA|].
      split; [rewrite app_length, zeros_length; lia|apply bytes_app; [exact BT|apply bytes_zeros]]. }
    clearbody c1. cbn [snd]. f_equal. cbn [m_w_sum m_sum m_w_mlen m_w_alen m_Zi].
    destruct HA1 as (A1 & A2 & A3). rewrite app_assoc, ml_snoc by (auto; apply lengths_blk). rewrite A2, A3. reflexivity.
  Qed.
  Theorem finish_Inv2 c A C : Inv2 c A C -> mgm_lengths_ok bl A C ->
    snd (mgm_finish bl le E mul c) = mgm_tag_spec bl E mul icn A C.
  Proof.
    pose proof bl_pos as P. intros (B & N1 & H1 & H2 & (I1 & I2 & I3 & I4 & I5 & I6 & I7 & I8)) HL.
    rewrite (finish_AB c A C (padded bl A ++ blocks bl (full bl C)) (tail bl C)); auto.
    - unfold mgm_tag_spec. f_equal. f_equal. rewrite (padded_split C). rewrite <- !app_assoc. destruct (tail bl C); reflexivity.
    - rewrite I3, I4. reflexivity.
    - apply tail_lt; auto.
    - apply tail_bytes; auto.
    - rewrite I3 in I6. exact I6.
  Qed.
  Theorem finish_Inv1 c A : Inv1 true c A -> mgm_lengths_ok bl A nil ->
    snd (mgm_finish bl le E mul c) = mgm_tag_spec bl E mul icn A nil.
  Proof.
    pose proof bl_pos as P. intros (B & N1 & H1 & H2 & H3 & H4 & H5 & H6 & H7 & H8) HL.
    rewrite (finish_AB c A nil (blocks bl (full bl A)) (tail bl A)); auto.
    - unfold mgm_tag_spec. f_equal. f_equal. rewrite (padded_split A). rewrite <- !app_assoc. destruct (tail bl A); reflexivity.
    - rewrite H3, H4. lia.
    - apply tail_lt; auto.
    - apply tail_bytes; auto.
    - rewrite H4 in H6. exact H6.
  Qed.
  (** No call at all: the sum is empty and the length block is zero. *)
  Hypothesis Hmul0 : forall a, isblk a -> mul a (zeros bl) = zeros bl.
  Lemma lengths_nil : lengths bl nil nil = zeros bl.
  Proof. unfold lengths. destruct Hbl as [e|e]; rewrite e; reflexivity. Qed.
  Theorem finish_nothing c : Inv1 false c nil -> isblk (m_Zi c) ->
    snd (mgm_finish bl le E mul c) = mgm_tag_spec bl E mul icn nil nil.
  Proof.
    pose proof bl_pos as P. intros (B & N1 & H1 & H2 & H3 & H4 & H5 & H6 & H7 & _) HZ.
    assert (LB : len_block bl le (w64 (N.shiftl 0 3)) (w64 (N.shiftl 0 3)) = lengths bl nil nil).
    { apply (len_block_spec nil nil). unfold mgm_lengths_ok; destruct Hbl as [e|e]; rewrite e; reflexivity. }
    unfold mgm_finish. rewrite H1, H2, H3, H4. rewrite tail_short by (cbn; lia). cbn [length Nat.add Nat.eqb N.of_nat]. rewrite LB.
    cbn [snd m_w_sum m_sum m_w_mlen m_w_alen m_Zi]. unfold mgm_tag_spec. rewrite padded_nil, lengths_nil. cbn [app multilinear].
    rewrite H7, full_short, blocks_nil by (cbn; lia). cbn [multilinear].
    rewrite !Hmul0 by (apply HE; auto; apply Zcnt_blk). reflexivity.
  Qed.
  Lemma tag_blk A C : bytes A -> bytes C -> isblk (mgm_tag_spec bl E mul icn A C).
  Proof.
    intros BA BC. apply HE, ml_blk. apply Forall_app. split; [apply padded_blk; auto|]. apply Forall_app. split; [apply padded_blk; auto|].
    constructor; [apply lengths_blk|constructor].
  Qed.
End Gen.

(** ** One block decrypted from an arbitrary state of Zi (used for the refutation in PropMgm) *)
Section OneBlock.
  Variable bl : nat.
  Variable le : bool.
  Variable E : list N -> list N.
  Variable mul : list N -> list N -> list N.
  Hypothesis Hbl : bl = 8%nat \/ bl = 16%nat.
  Definition keep (c : mgm) := (m_nonce c, m_Zi c, m_sum c, m_alen c, m_mlen c, m_ares c).
  Lemma byte_partial c x : (m_mres c + 1 < bl)%nat -> length (m_ACi c) = bl ->
    let c' := fst (mgm_byte bl E mul true c x) in
    keep c' = keep c /\ m_mres c' = (m_mres c + 1)%nat /\ length (m_ACi c') = bl /\
    firstn (m_mres c + 1) (m_ACi c') = firstn (m_mres c) (m_ACi c) ++ [x].
  Proof.
    intros H L. cbv zeta. unfold mgm_byte. rewrite (Nat.mod_small (m_mres c)) by lia.
    set (c1 := if (m_mres c =? 0)%nat then m_w_Yi (m_w_EKi c (E (m_Yi c))) (incr_r bl (m_Yi c)) else c).
    assert (K : keep c1 = keep c /\ m_ACi c1 = m_ACi c) by (unfold c1; destruct (m_mres c =? 0)%nat; split; reflexivity).
    clearbody c1. destruct K as [K1 K2]. rewrite Nat.mod_small by lia. destruct (Nat.eqb_spec (m_mres c + 1) 0); [lia|].
    cbn [fst]. split; [exact K1|]. split; [reflexivity|]. cbn [m_ACi m_w_mres m_w_ACi]. rewrite K2.
    split; [rewrite set_length; exact L|]. rewrite Nat.add_1_r. apply firstn_succ_set. lia.
  Qed.
  Lemma bytes_partial inp : forall c, (m_mres c + length inp < bl)%nat -> length (m_ACi c) = bl ->
    let c' := fst (mgm_bytes bl E mul true c inp) in
    keep c' = keep c /\ m_mres c' = (m_mres c + length inp)%nat /\ length (m_ACi c') = bl /\
    firstn (m_mres c + length inp) (m_ACi c') = firstn (m_mres c) (m_ACi c) ++ inp.
  Proof.
    induction inp as [|x inp IH]; intros c H L; cbv zeta; cbn [mgm_bytes length] in *.
    - cbn [fst]. rewrite Nat.add_0_r, app_nil_r. auto.
    - destruct (byte_partial c x) as (B1 & B2 & B3 & B4); [lia|auto|]. destruct (mgm_byte bl E mul true c x) as [c1 o]. cbn [fst] in *.
      specialize (IH c1). destruct (mgm_bytes bl E mul true c1 inp) as [c2 out]. cbn [fst] in *.
      destruct IH as (I1 & I2 & I3 & I4); [lia|auto|]. split; [congruence|]. split; [lia|]. split; [auto|].
      replace (m_mres c + S (length inp))%nat with (m_mres c1 + length inp)%nat by lia. rewrite I4, B2, B4, <- app_assoc. reflexivity.
  Qed.
  Lemma mgm_bytes_app dec a b : forall c, fst (mgm_bytes bl E mul dec c (a ++ b)) =
    fst (mgm_bytes bl E mul dec (fst (mgm_bytes bl E mul dec c a)) b).
  Proof.
    induction a as [|x a IH]; intros c; cbn [app mgm_bytes]; [reflexivity|].
    destruct (mgm_byte bl E mul dec c x) as [c1 o]. specialize (IH c1).
    destruct (mgm_bytes bl E mul dec c1 (a ++ b)) as [c2 o2]. destruct (mgm_bytes bl E mul dec c1 a) as [c3 o3]. cbn [fst] in *. exact IH.
  Qed.
  Lemma block_bytes c C : m_mres c = 0%nat -> length C = bl -> length (m_ACi c) = bl ->
    let c' := fst (mgm_bytes bl E mul true c C) in
    m_Zi c' = incr_l bl (m_Zi c) /\ m_sum c' = xorl (m_sum c) (mul (E (m_Zi c)) C) /\ m_mres c' = 0%nat /\
    m_ares c' = m_ares c /\ m_alen c' = m_alen c /\ m_mlen c' = m_mlen c.
  Proof.
    intros H LC LA. cbv zeta. assert (P : (0 < bl)%nat) by (destruct Hbl; lia).
    destruct (exists_last (l := C)) as (C1 & x & ->); [intros ->; cbn in LC; lia|]. rewrite app_length in LC. cbn [length] in LC.
    rewrite mgm_bytes_app. destruct (bytes_partial C1 c) as (B1 & B2 & B3 & B4); [lia|auto|].
    set (c1 := fst (mgm_bytes bl E mul true c C1)) in *. clearbody c1. rewrite H in *. cbn [firstn app Nat.add] in B4.
    cbn [mgm_bytes]. unfold mgm_byte. rewrite B2. rewrite (Nat.mod_small (0 + length C1)) by lia. cbn [Nat.add].
    set (c2 := if (length C1 =? 0)%nat then m_w_Yi (m_w_EKi c1 (E (m_Yi c1))) (incr_r bl (m_Yi c1)) else c1).
    assert (K : keep c2 = keep c1 /\ m_ACi c2 = m_ACi c1) by (unfold c2; destruct (length C1 =? 0)%nat; split; reflexivity).
    clearbody c2. destruct K as [K1 K2]. replace (length C1 + 1)%nat with bl by lia. rewrite Nat.mod_same by lia. cbn [Nat.eqb fst].
    rewrite B1 in K1. injection K1 as Q1 Q2 Q3 Q4 Q5 Q6.
    cbn [absorb m_w_Zi m_w_sum m_Zi m_sum m_w_mres m_w_ACi m_ACi m_mres m_ares m_alen m_mlen]. rewrite K2, Q2, Q3, Q4, Q5, Q6.
    assert (SA : set (m_ACi c1) (length C1) x = C1 ++ [x]).
    { rewrite <- B4 at 2. rewrite <- firstn_succ_set by lia. symmetry. apply firstn_all2. rewrite set_length. lia. }
    rewrite SA. repeat split; reflexivity.
  Qed.
End OneBlock.
