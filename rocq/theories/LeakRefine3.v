(** The multiplication of the generator of LeakModel computes that of EcLadderModel. *)
From Coq Require Import String List ZArith Bool Lia.
From Verif Require Import Bytes EcLadderModel LeakModel LeakProofs LeakRefine LeakRefine2.
Import ListNotations.
Local Open Scope list_scope.
Local Open Scope Z_scope.

Section Refine.
  Context (C : group) (s : shape).
  Notation run p st := (snd (exec C p st)).
  Notation psame := (psame C). Notation vsame := (vsame C).
  Lemma run_if c p q st : run (If c p q) st = if snd (eval C st c) =? 0 then run q st else run p st.
  Proof. cbn [exec]. destruct (eval C st c) as [t v]. cbn [snd]. destruct (v =? 0); [destruct (exec C q st)|destruct (exec C p st)]; reflexivity. Qed.

  Definition col_test : expr := Bin Gt (Bin Add (Bin Mul (Var "j") (Num (Z.of_nat (s_rows s)))) (Var "i")) (Num (Z.of_nat (s_nd s) - 1)).
  Definition col_body : stmt :=
    If col_test Skip
      (Seq (Set_ "d" (Arr "rnaf" (Bin Add (Bin Mul (Var "j") (Num (Z.of_nat (s_rows s)))) (Var "i")))) (digit_add "k" (lut_cmb_ (Var "j")))).
  Definition row_body : stmt :=
    Seq (If (Bin Ne (Var "i") (Num (Z.of_nat (s_rows s) - 1))) (For "j" (Num 0) (Num 5) (PDbl Q_ Q_)) Skip)
        (For "j" (Num 0) (Num (Z.of_nat (s_cols s))) col_body).
  Definition QL : list string := ["Q"; "lut"; "out"]%string.
  Definition LV : list string := ["d"; "is_neg"; "diff"; "k"; "j"]%string.
  Definition rn_ok (rnaf : list Z) (st : store C) : Prop := forall k, (k < s_nd s)%nat -> arrs st "rnaf"%string (Z.of_nat k) = nth k rnaf 0.
  Definition tb_ok (st : store C) : Prop := forall j k, (k < 16)%nat -> pts st "lut_cmb"%string (Z.of_nat j * 16 + Z.of_nat k) = lut_cmb C j k.
  Lemma tb_same st st' : psame QL st st' -> tb_ok st -> tb_ok st'.
  Proof. intros H T j k K. rewrite (H "lut_cmb"%string) by (cbn; intuition discriminate). apply T. exact K. Qed.
  Lemma rn_same rnaf st st' : arrs st' = arrs st -> rn_ok rnaf st -> rn_ok rnaf st'.
  Proof. intros H T k K. rewrite H. apply T. exact K. Qed.

  (** One step on the pair of the accumulator and the last entry read. *)
  Definition steps (rnaf : list Z) (p : stmt) (st : store C) (f : pt C * pt C -> pt C * pt C) : Prop :=
    (pts (run p st) "Q"%string 0, pts (run p st) "lut"%string 0) = f (pts st "Q"%string 0, pts st "lut"%string 0) /\
    psame QL st (run p st) /\ vsame LV st (run p st) /\ arrs (run p st) = arrs st.

  Lemma col_turn rnaf i j st : (1 <= s_nd s)%nat -> vars st "i"%string = Z.of_nat i -> vars st "j"%string = Z.of_nat j -> rn_ok rnaf st -> tb_ok st ->
    steps rnaf col_body st (fun ql => cmb_col C s rnaf i ql j).
  Proof.
    intros N Ei Ej R T. unfold steps, col_body, cmb_col. rewrite run_if.
    assert (Et : snd (eval C st col_test) = zb (s_nd s - 1 <? j * s_rows s + i)%nat).
    { unfold col_test. rewrite !eval_bin, !eval_var, !eval_num, Ei, Ej. cbn [bin]. f_equal.
      destruct (Nat.ltb_spec (s_nd s - 1) (j * s_rows s + i)), (Z.ltb_spec (Z.of_nat (s_nd s) - 1) (Z.of_nat j * Z.of_nat (s_rows s) + Z.of_nat i)); nia. }
    rewrite Et. destruct (Nat.ltb_spec (s_nd s - 1) (j * s_rows s + i)) as [B|B]; cbn [zb Z.eqb].
    - cbn [exec snd]. split; [reflexivity|]. split; [apply psame_refl|]. split; [apply vsame_refl|reflexivity].
    - rewrite (run_seq C), (run_set C), eval_arr, !eval_bin, !eval_var, eval_num, Ei, Ej. cbn [bin].
      replace (Z.of_nat j * Z.of_nat (s_rows s) + Z.of_nat i) with (Z.of_nat (j * s_rows s + i)) by lia. rewrite (R (j * s_rows s + i)%nat) by lia.
      set (d := nth (j * s_rows s + i) rnaf 0). set (s2 := set_var C st "d" d).
      pose proof (run_digit_add C s2 "k"%string (lut_cmb_ (Var "j")) "lut_cmb"%string (fun z => Z.of_nat j * 16 + z)) as A. cbv zeta in A.
      specialize (A ltac:(cbn; intuition discriminate) ltac:(cbn; intuition discriminate)).
      assert (A0 : forall st' : store C, vsame ["d"; "is_neg"; "diff"; "k"]%string s2 st' -> snd (loc C st' (lut_cmb_ (Var "j") (Var "k"))) = ("lut_cmb"%string, Z.of_nat j * 16 + vars st' "k"%string)).
      { intros st' V. cbn. rewrite (V "j"%string) by (cbn; intuition discriminate). unfold s2. cbn [vars set_var]. change (("j" =? "d")%string) with false. cbn iota. rewrite Ej. reflexivity. }
      specialize (A A0). clear A0.
      assert (V2 : vars s2 "d"%string = d) by (apply set_same).
      assert (P2 : pts s2 = pts st) by reflexivity. assert (R2 : arrs s2 = arrs st) by reflexivity.
      assert (W2 : vsame LV st s2) by (apply vsame_set; cbn; tauto). rewrite V2, P2, R2 in A.
      clearbody s2. set (s3 := run (digit_add "k" (lut_cmb_ (Var "j"))) s2) in *. clearbody s3. destruct A as (A1 & A2 & A3 & A4 & A5).
      assert (L : lookup C (fun n => pts st "lut_cmb"%string (Z.of_nat j * 16 + Z.of_nat n)) (digit_idx d) (pts st "lut"%string 0) =
                  lookup C (lut_cmb C j) (digit_idx d) (pts st "lut"%string 0)).
      { apply lookup_ext; [reflexivity|reflexivity|]. intros n Hn. apply T. exact Hn. }
      rewrite L in *. split; [rewrite A1, A2; reflexivity|]. split; [|split].
      + intros y Hy z. rewrite (A3 y Hy z), P2. reflexivity.
      + eapply vsame_trans; [exact W2|]. eapply vsame_weaken; [|exact A4]. cbn; intuition.
      + exact A5.
  Qed.
  Lemma cols_loop (p : stmt) rnaf i l :
    (forall (st : store C) j, vars st "i"%string = Z.of_nat i -> vars st "j"%string = Z.of_nat j -> rn_ok rnaf st -> tb_ok st -> steps rnaf p st (fun ql => cmb_col C s rnaf i ql j)) ->
    forall st : store C, vars st "i"%string = Z.of_nat i -> rn_ok rnaf st -> tb_ok st ->
    let st' := snd (turns C "j" p (map Z.of_nat l) st) in
    (pts st' "Q"%string 0, pts st' "lut"%string 0) = fold_left (cmb_col C s rnaf i) l (pts st "Q"%string 0, pts st "lut"%string 0) /\
    psame QL st st' /\ vsame LV st st' /\ arrs st' = arrs st.
  Proof.
    intros Step. induction l as [|k l IH]; intros st Ei R T; cbv zeta; [split; [reflexivity|split; [apply psame_refl|split; [apply vsame_refl|reflexivity]]]|].
    cbn [map]. change (snd (turns C "j" p (Z.of_nat k :: map Z.of_nat l) st)) with (snd (turns C "j" p (map Z.of_nat l) (run p (set_var C st "j" (Z.of_nat k))))).
    pose proof (Step (set_var C st "j" (Z.of_nat k)) k Ei eq_refl R T) as S1. unfold steps in S1.
    set (s1 := run p (set_var C st "j" (Z.of_nat k))) in *. clearbody s1. destruct S1 as (T1 & T2 & T3 & T4). cbn [pts set_var arrs] in T1, T4.
    assert (T2' : psame QL st s1) by (exact T2).
    assert (T3' : vsame LV st s1) by (eapply vsame_trans; [|exact T3]; apply vsame_set; cbn; tauto).
    clear T2 T3. destruct (IH s1) as (R1 & R2 & R3 & R4).
    - rewrite (T3' "i"%string) by (cbn; intuition discriminate). exact Ei.
    - exact (rn_same rnaf st s1 T4 R).
    - exact (tb_same st s1 T2' T).
    - split; [rewrite R1, T1; reflexivity|]. split; [eapply psame_trans; [exact T2'|exact R2]|]. split; [eapply vsame_trans; [exact T3'|exact R3]|rewrite R4; exact T4].
  Qed.
  Lemma row_turn rnaf i st : (1 <= s_nd s)%nat -> (i < s_rows s)%nat -> vars st "i"%string = Z.of_nat i -> rn_ok rnaf st -> tb_ok st ->
    steps rnaf row_body st (fun ql => cmb_row C s rnaf ql i).
  Proof.
    intros N I Ei R T. unfold steps, row_body, cmb_row. rewrite (run_seq C), run_if, eval_bin, eval_var, eval_num, Ei. cbn [bin].
    assert (Et : zb (negb (Z.of_nat i =? Z.of_nat (s_rows s) - 1)) = zb (negb (i =? s_rows s - 1)%nat)).
    { f_equal. f_equal. destruct (Z.eqb_spec (Z.of_nat i) (Z.of_nat (s_rows s) - 1)), (Nat.eqb_spec i (s_rows s - 1)); lia. }
    rewrite Et. clear Et.
    set (s1 := if zb (negb (i =? s_rows s - 1)%nat) =? 0 then run Skip st else run (For "j" (Num 0) (Num 5) (PDbl Q_ Q_)) st).
    assert (H1 : pts s1 "Q"%string 0 = (if (i =? s_rows s - 1)%nat then pts st "Q"%string 0 else Nat.iter RADIX (pdouble C) (pts st "Q"%string 0)) /\
      pts s1 "lut"%string 0 = pts st "lut"%string 0 /\ psame QL st s1 /\ vsame LV st s1 /\ arrs s1 = arrs st).
    { unfold s1. destruct (i =? s_rows s - 1)%nat; cbn [negb zb Z.eqb].
      - cbn [exec snd]. split; [reflexivity|]. split; [reflexivity|]. split; [apply psame_refl|]. split; [apply vsame_refl|reflexivity].
      - rewrite (proj2 (exec_for _ _ _ _ _ _)), !eval_num.
        pose proof (run_dbls C "Q"%string "j"%string (zrange 0 5) st) as D. cbv zeta in D. fold Q_ in D. change (List.length (zrange 0 5)) with RADIX in D.
        set (t1 := snd (turns C "j" (PDbl Q_ Q_) (zrange 0 5) st)) in *. clearbody t1. destruct D as (D1 & D2 & D3 & D4).
        split; [exact D1|]. split; [apply D2; cbn; intuition discriminate|]. split; [|split; [|exact D4]].
        + intros y Hy. apply D2. intros [<-|[]]. apply Hy. cbn. auto.
        + intros y Hy. apply D3. intros [<-|[]]. apply Hy. cbn. tauto. }
    clearbody s1. destruct H1 as (B1 & B2 & B3 & B4 & B5).
    rewrite (proj2 (exec_for _ _ _ _ _ _)), !eval_num.
    replace (zrange 0 (Z.of_nat (s_cols s))) with (map Z.of_nat (seq 0 (s_cols s))) by (unfold zrange; rewrite Z.sub_0_r, Nat2Z.id; reflexivity).
    destruct (cols_loop col_body rnaf i (seq 0 (s_cols s)) (fun st' j => col_turn rnaf i j st' N) s1) as (R1 & R2 & R3 & R4).
    - rewrite (B4 "i"%string) by (cbn; intuition discriminate). exact Ei.
    - exact (rn_same rnaf st s1 B5 R).
    - exact (tb_same st s1 B3 T).
    - set (s2 := snd (turns C "j" col_body (map Z.of_nat (seq 0 (s_cols s))) s1)) in *. clearbody s2.
      split; [rewrite R1, B1, B2; reflexivity|]. split; [eapply psame_trans; [exact B3|exact R2]|]. split; [eapply vsame_trans; [exact B4|exact R3]|rewrite R4; exact B5].
  Qed.
  Lemma rows_loop (p : stmt) rnaf l :
    (forall (st : store C) i, (i < s_rows s)%nat -> vars st "i"%string = Z.of_nat i -> rn_ok rnaf st -> tb_ok st -> steps rnaf p st (fun ql => cmb_row C s rnaf ql i)) ->
    (forall i, In i l -> (i < s_rows s)%nat) ->
    forall st : store C, rn_ok rnaf st -> tb_ok st ->
    let st' := snd (turns C "i" p (map Z.of_nat l) st) in
    (pts st' "Q"%string 0, pts st' "lut"%string 0) = fold_left (cmb_row C s rnaf) l (pts st "Q"%string 0, pts st "lut"%string 0) /\
    psame QL st st' /\ arrs st' = arrs st.
  Proof.
    intros Step. induction l as [|k l IH]; intros Hl st R T; cbv zeta; [split; [reflexivity|split; [apply psame_refl|reflexivity]]|].
    cbn [map]. change (snd (turns C "i" p (Z.of_nat k :: map Z.of_nat l) st)) with (snd (turns C "i" p (map Z.of_nat l) (run p (set_var C st "i" (Z.of_nat k))))).
    pose proof (Step (set_var C st "i" (Z.of_nat k)) k (Hl k (or_introl eq_refl)) eq_refl R T) as S1. unfold steps in S1.
    set (s1 := run p (set_var C st "i" (Z.of_nat k))) in *. clearbody s1. destruct S1 as (T1 & T2 & _ & T4). cbn [pts set_var arrs] in T1, T4.
    assert (T2' : psame QL st s1) by (exact T2). clear T2.
    destruct (IH (fun i Hi => Hl i (or_intror Hi)) s1) as (R1 & R2 & R4).
    - exact (rn_same rnaf st s1 T4 R).
    - exact (tb_same st s1 T2' T).
    - split; [rewrite R1, T1; reflexivity|]. split; [eapply psame_trans; [exact T2'|exact R2]|rewrite R4; exact T4].
  Qed.
  Theorem fixed_smul_cmb_computes scalar P : (1 <= s_nd s)%nat ->
    pts (run (fixed_smul_cmb_prog s) (one_store C scalar P)) "Q"%string 0 = fixed_smul_cmb C s scalar.
  Proof.
    intros Hn. unfold fixed_smul_cmb_prog. rewrite !(run_seq C).
    set (s0 := one_store C scalar P).
    assert (I0 : forall i, arrs s0 "scalar"%string i = bytes_arr scalar i) by reflexivity.
    assert (T0 : tb_ok s0).
    { intros j k K. unfold s0, one_store. cbn [pts set_pt]. change (("lut_cmb" =? fst ("P"%string, 0))%string) with false. cbn [andb]. unfold with_cmb. cbn [pts].
      change (("lut_cmb" =? "lut_cmb")%string) with true. cbn iota. rewrite Z.add_comm, Z.div_add, Z.mod_add, Z.div_small, Z.mod_small by lia. rewrite Z.add_0_l, !Nat2Z.id. reflexivity. }
    assert (U0 : pts s0 "lut"%string 0 = pzero C) by reflexivity.
    clearbody s0.
    pose proof (recode C s scalar s0 Hn I0) as B. cbv zeta in B. set (s2 := run (scalar_rwnaf_prog s) s0) in *. clearbody s2. destruct B as (B1 & B2 & B3).
    assert (I2 : forall i, arrs s2 "scalar"%string i = bytes_arr scalar i) by (intros i; rewrite B2 by discriminate; apply I0).
    set (rnaf := scalar_rwnaf s scalar) in *.
    assert (E3 : run (PInf Q_) s2 = set_pt C s2 ("Q"%string, 0) (pzero C)) by reflexivity. rewrite E3. clear E3.
    set (s3 := set_pt C s2 ("Q"%string, 0) (pzero C)).
    assert (T3 : tb_ok s3).
    { intros j k K. unfold s3. rewrite run_pt_same by discriminate. rewrite B3. apply T0. exact K. }
    assert (R3 : rn_ok rnaf s3) by (exact B1).
    assert (Q3 : pts s3 "Q"%string 0 = pzero C) by (apply pt_same).
    assert (U3 : pts s3 "lut"%string 0 = pzero C) by (unfold s3; rewrite run_pt_same by discriminate; rewrite B3; exact U0).
    assert (I3 : forall i, arrs s3 "scalar"%string i = bytes_arr scalar i) by (exact I2). clearbody s3.
    rewrite (exec_down C), !eval_num.
    replace (rev (zrange 0 (Z.of_nat (s_rows s) - 1 + 1))) with (map Z.of_nat (rev (seq 0 (s_rows s)))).
    2:{ rewrite map_rev. f_equal. unfold zrange. replace (Z.to_nat (Z.of_nat (s_rows s) - 1 + 1 - 0)) with (s_rows s) by lia. apply map_ext. intros a. lia. }
    fold (digit_add "k" (lut_cmb_ (Var "j"))). fold col_test. fold col_body. fold row_body.
    pose proof (rows_loop row_body rnaf (rev (seq 0 (s_rows s))) (fun st i => row_turn rnaf i st Hn)) as V.
    specialize (V ltac:(intros k Hk; apply in_rev, in_seq in Hk; lia) s3 R3 T3). cbv zeta in V.
    set (s5 := snd (turns C "i" row_body _ s3)) in *. clearbody s5. destruct V as (V1 & V2 & V3).
    rewrite Q3, U3 in V1. unfold fixed_smul_cmb. cbv zeta. fold rnaf. rewrite <- V1.
    assert (Pz : pts s5 "lut_cmb"%string 0 = lut_cmb C 0 0) by (exact (tb_same s3 s5 V2 T3 0%nat 0%nat ltac:(lia))).
    assert (I5 : forall i, arrs s5 "scalar"%string i = bytes_arr scalar i) by (intros i; rewrite V3; apply I3).
    set (s6 := run (PNeg lut_ (lut_cmb_ (Num 0) (Num 0))) s5).
    assert (E6 : s6 = set_pt C s5 ("lut"%string, 0) (pneg C (pts s5 "lut_cmb"%string 0))) by reflexivity. clearbody s6.
    set (s7 := run (PAdd R_ Q_ lut_) s6).
    assert (E7 : s7 = set_pt C s6 ("R"%string, 0) (padd C (pts s6 "Q"%string 0) (pts s6 "lut"%string 0))) by reflexivity. clearbody s7.
    assert (R7 : pts s7 "R"%string 0 = padd C (pts s5 "Q"%string 0) (pneg C (lut_cmb C 0 0))).
    { rewrite E7, pt_same, E6, pt_same, run_pt_same by discriminate. rewrite Pz. reflexivity. }
    assert (Q7 : pts s7 "Q"%string 0 = pts s5 "Q"%string 0).
    { rewrite E7, run_pt_same, E6, run_pt_same by discriminate. reflexivity. }
    assert (I7 : forall i, arrs s7 "scalar"%string i = bytes_arr scalar i) by (rewrite E7, E6; exact I5). clear E6 E7.
    cbn [exec]. pose proof (scalar_bit C s7 scalar I7) as SB. destruct (eval C s7 (Bin And (Arr "scalar" (Num 0)) (Num 1))) as [t v]. cbn [snd] in SB.
    unfold src, dst, R_, Q_. cbn [loc eval fst snd]. rewrite pt_same, SB. unfold get_pt. cbn [fst snd]. rewrite R7, Q7. reflexivity.
  Qed.
End Refine.
