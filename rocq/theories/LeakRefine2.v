(** The multiplications of LeakModel compute those of EcLadderModel. *)
From Coq Require Import String List ZArith Bool Lia.
From Verif Require Import Bytes EcLadderModel LeakModel LeakProofs LeakRefine.
Import ListNotations.
Local Open Scope list_scope.
Local Open Scope Z_scope.

Section Refine.
  Context (C : group).
  Notation run p st := (snd (exec C p st)).
  Notation psame := (psame C). Notation vsame := (vsame C).
  Lemma lookup_ext t1 t2 d d' old old' : d = d' -> old = old' -> (forall j, (j < 16)%nat -> t1 j = t2 j) -> lookup C t1 d old = lookup C t2 d' old'.
  Proof. intros -> -> H. unfold lookup. apply fold_lookup_ext. intros j Hj. apply H. apply in_seq in Hj. lia. Qed.
  (** A signed digit: magnitude, look-up, negation, addition; shared by both multiplications. *)
  Definition digit_add (j : string) (tbl : expr -> ploc) : stmt := Seq digit_prog (Seq (lookup_prog lut_ j tbl) (Seq negate_prog (PAdd Q_ Q_ lut_))).
  Lemma run_digit_add st j tbl tn (f : Z -> Z) :
    ~ In tn ["lut"; "out"; "Q"]%string -> ~ In j ["diff"; "d"; "is_neg"]%string ->
    (forall st' : store C, vsame ["d"; "is_neg"; "diff"; j]%string st st' -> snd (loc C st' (tbl (Var j))) = (tn, f (vars st' j))) ->
    let st' := run (digit_add j tbl) st in
    let l := lookup C (fun k => pts st tn (f (Z.of_nat k))) (digit_idx (vars st "d"%string)) (pts st "lut"%string 0) in
    let l := if digit_neg (vars st "d"%string) =? 0 then l else pneg C l in
    pts st' "Q"%string 0 = padd C (pts st "Q"%string 0) l /\ pts st' "lut"%string 0 = l /\ psame ["Q"; "lut"; "out"]%string st st' /\
    vsame ["d"; "is_neg"; "diff"; j]%string st st' /\ arrs st' = arrs st.
  Proof.
    intros Ht Hj Hl. cbv zeta. unfold digit_add. rewrite !(run_seq C). cbn in Ht, Hj.
    pose proof (run_digit C st) as D. cbv zeta in D. set (s1 := run digit_prog st) in *. clearbody s1. destruct D as (D1 & D2 & D3 & D4 & D5).
    assert (V1 : vsame ["d"; "is_neg"; "diff"; j]%string st s1) by (eapply vsame_weaken; [|exact D3]; cbn; intuition).
    pose proof (run_lookup C s1 "lut"%string j tbl tn f) as L. cbv zeta in L.
    assert (Hl1 : forall st' : store C, vsame ["diff"%string; j] s1 st' -> snd (loc C st' (tbl (Var j))) = (tn, f (vars st' j))).
    { intros st' V. apply Hl. eapply vsame_trans; [exact V1|]. eapply vsame_weaken; [|exact V]. cbn; intuition. }
    specialize (L ltac:(intuition) ltac:(intuition congruence) ltac:(intuition congruence) Hl1). fold lut_ in L. set (s2 := run (lookup_prog lut_ j tbl) s1) in *. clearbody s2.
    destruct L as (L1 & L2 & L3 & L4).
    pose proof (run_negate C s2) as G. cbv zeta in G. set (s3 := run negate_prog s2) in *. clearbody s3. destruct G as (G1 & G2 & G3 & G4).
    assert (En : vars s2 "is_neg"%string = digit_neg (vars st "d"%string)).
    { rewrite (L3 "is_neg"%string); [exact D2|]. cbn. intuition congruence. }
    rewrite En, L1, D1, D5 in G1.
    assert (P : psame ["Q"; "lut"; "out"]%string st s3).
    { intros y Hy z. cbn in Hy. rewrite (G2 y) by (cbn; intuition). rewrite (L2 y) by (cbn; intuition). rewrite D5. reflexivity. }
    assert (EQ : pts s3 "Q"%string 0 = pts st "Q"%string 0).
    { rewrite (G2 "Q"%string) by (cbn; intuition discriminate). rewrite (L2 "Q"%string) by (cbn; intuition discriminate). rewrite D5. reflexivity. }
    assert (E : run (PAdd Q_ Q_ lut_) s3 = set_pt C s3 ("Q"%string, 0) (padd C (pts s3 "Q"%string 0) (pts s3 "lut"%string 0))) by reflexivity.
    rewrite E. split; [rewrite pt_same, EQ, G1; reflexivity|]. split; [rewrite run_pt_same by discriminate; exact G1|]. split; [|split].
    - intros y Hy z. rewrite run_pt_same by (intros ->; apply Hy; cbn; auto). apply P. exact Hy.
    - intros y Hy. cbn [vars set_pt]. rewrite G3. rewrite (L3 y) by (cbn in *; intuition). apply V1. exact Hy.
    - cbn [arrs set_pt]. congruence.
  Qed.

  Definition var_body : stmt :=
    Seq (For "j" (Num 0) (Num 5) (PDbl Q_ Q_)) (Seq (Set_ "d" (Arr "rnaf" (Var "i"))) (digit_add "j" precomp_)).
  Lemma var_turn st k pre (rnaf : list Z) : vars st "i"%string = Z.of_nat k -> arrs st "rnaf"%string (Z.of_nat k) = nth k rnaf 0 ->
    (forall n, (n < 16)%nat -> pts st "precomp"%string (Z.of_nat n) = nth n pre (pzero C)) ->
    let st' := run var_body st in
    (pts st' "Q"%string 0, pts st' "lut"%string 0) = rwnaf_turn C pre (pts st "Q"%string 0, pts st "lut"%string 0) (nth k rnaf 0) /\
    psame ["Q"; "lut"; "out"]%string st st' /\ arrs st' = arrs st.
  Proof.
    intros Ei Er Hp. cbv zeta. unfold var_body. rewrite !(run_seq C). rewrite (proj2 (exec_for _ _ _ _ _ _)), !eval_num.
    pose proof (run_dbls C "Q"%string "j"%string (zrange 0 5) st) as D. cbv zeta in D. fold Q_ in D. change (List.length (zrange 0 5)) with RADIX in D.
    set (s1 := snd (turns C "j" (PDbl Q_ Q_) (zrange 0 5) st)) in *. clearbody s1. destruct D as (D1 & D2 & D3 & D4).
    rewrite run_set, eval_arr, eval_var. rewrite (D3 "i"%string) by (cbn; intuition discriminate). rewrite Ei, D4, Er.
    set (s2 := set_var C s1 "d" (nth k rnaf 0)).
    pose proof (run_digit_add s2 "j"%string precomp_ "precomp"%string (fun z => z)) as A. cbv zeta in A.
    specialize (A ltac:(cbn; intuition discriminate) ltac:(cbn; intuition discriminate) ltac:(reflexivity)).
    change (vars s2 "d"%string) with (nth k rnaf 0) in A. change (pts s2) with (pts s1) in A.
    set (s3 := run (digit_add "j" precomp_) s2) in *. clearbody s3. destruct A as (A1 & A2 & A3 & _ & A5).
    assert (L : lookup C (fun n => pts s1 "precomp"%string (Z.of_nat n)) (digit_idx (nth k rnaf 0)) (pts s1 "lut"%string 0) =
                lookup C (fun n => nth n pre (pzero C)) (digit_idx (nth k rnaf 0)) (pts st "lut"%string 0)).
    { apply lookup_ext; [reflexivity|apply D2; cbn; intuition discriminate|]. intros n Hn. rewrite (D2 "precomp"%string) by (cbn; intuition discriminate). apply Hp. exact Hn. }
    rewrite L, D1 in *. unfold rwnaf_turn. split; [rewrite A1, A2; reflexivity|]. split.
    - intros y Hy z. rewrite (A3 y Hy z). change (pts s2) with (pts s1). apply D2. intros [<-|[]]. apply Hy. cbn. auto.
    - rewrite A5. exact D4.
  Qed.
  (** A loop whose turns satisfy a given step. *)
  Lemma turns_step (p : stmt) pre rnaf nd l : 
    (forall (st : store C) k, vars st "i"%string = Z.of_nat k -> arrs st "rnaf"%string (Z.of_nat k) = nth k rnaf 0 ->
      (forall n, (n < 16)%nat -> pts st "precomp"%string (Z.of_nat n) = nth n pre (pzero C)) ->
      let st' := run p st in
      (pts st' "Q"%string 0, pts st' "lut"%string 0) = rwnaf_turn C pre (pts st "Q"%string 0, pts st "lut"%string 0) (nth k rnaf 0) /\
      psame ["Q"; "lut"; "out"]%string st st' /\ arrs st' = arrs st) ->
    forall st : store C, (forall k, In k l -> (k < nd)%nat) -> (forall k, (k < nd)%nat -> arrs st "rnaf"%string (Z.of_nat k) = nth k rnaf 0) ->
    (forall n, (n < 16)%nat -> pts st "precomp"%string (Z.of_nat n) = nth n pre (pzero C)) ->
    let st' := snd (turns C "i" p (map Z.of_nat l) st) in
    (pts st' "Q"%string 0, pts st' "lut"%string 0) = fold_left (rwnaf_turn C pre) (map (fun k => nth k rnaf 0) l) (pts st "Q"%string 0, pts st "lut"%string 0) /\
    psame ["Q"; "lut"; "out"]%string st st' /\ arrs st' = arrs st.
  Proof.
    intros Step. induction l as [|k l IH]; intros st Hk Hr Hp; cbv zeta; [split; [reflexivity|split; [apply psame_refl|reflexivity]]|].
    cbn [map]. change (snd (turns C "i" p (Z.of_nat k :: map Z.of_nat l) st)) with (snd (turns C "i" p (map Z.of_nat l) (run p (set_var C st "i" (Z.of_nat k))))).
    pose proof (Step (set_var C st "i" (Z.of_nat k)) k eq_refl (Hr k (Hk k (or_introl eq_refl))) Hp) as T. cbv zeta in T.
    set (s1 := run p (set_var C st "i" (Z.of_nat k))) in *. clearbody s1. destruct T as (T1 & T2 & T3).
    cbn [pts set_var arrs] in T1, T3. assert (T2' : psame ["Q"; "lut"; "out"]%string st s1) by (exact T2). clear T2.
    destruct (IH s1) as (R1 & R2 & R3).
    - intros n Hn. apply Hk. right. exact Hn.
    - intros n Hn. rewrite T3. apply Hr. exact Hn.
    - intros n Hn. rewrite (T2' "precomp"%string) by (cbn; intuition discriminate). apply Hp. exact Hn.
    - split; [rewrite R1, T1; reflexivity|]. split; [|rewrite R3; exact T3]. eapply psame_trans; [exact T2'|exact R2].
  Qed.
  Definition var_loop pre rnaf nd l := turns_step var_body pre rnaf nd l (fun st k => var_turn st k pre rnaf).
  Lemma rev_firstn_nth (l : list Z) n : (n <= List.length l)%nat -> map (fun k => nth k l 0) (rev (seq 0 n)) = rev (firstn n l).
  Proof.
    intros H. rewrite map_rev. f_equal. revert l H. induction n as [|n IH]; intros l H; [reflexivity|]. destruct l as [|x l]; [cbn in H; lia|].
    cbn [seq map firstn nth]. f_equal. rewrite <- seq_shift, map_map. cbn [nth]. apply IH. cbn in H. lia.
  Qed.
  Lemma scalar_bit st inp : (forall i, arrs st "scalar"%string i = bytes_arr inp i) ->
    (snd (eval C st (Bin And (Arr "scalar" (Num 0)) (Num 1))) =? 0) = N.eqb (N.land (nth 0 inp 0%N) 1) 0.
  Proof.
    intros I. rewrite eval_bin, eval_arr, !eval_num, I. cbn [bin]. unfold bytes_arr. change (Z.to_nat 0) with 0%nat.
    assert (E : Z.land (Z.of_N (nth 0 inp 0%N)) 1 = Z.of_N (N.land (nth 0 inp 0%N) 1)) by (destruct (nth 0 inp 0%N); reflexivity). rewrite E. destruct (N.eqb_spec (N.land (nth 0 inp 0%N) 1) 0) as [->|H]; [reflexivity|]. apply Z.eqb_neq. lia.
  Qed.
  Theorem var_smul_rwnaf_computes s scalar P : (1 <= s_nd s)%nat ->
    pts (run (var_smul_rwnaf_prog s) (one_store C scalar P)) "Q"%string 0 = var_smul_rwnaf C s scalar P.
  Proof.
    intros Hn. unfold var_smul_rwnaf_prog. rewrite !(run_seq C).
    set (s0 := one_store C scalar P).
    assert (I0 : forall i, arrs s0 "scalar"%string i = bytes_arr scalar i) by reflexivity.
    pose proof (run_precomp C s0 P eq_refl (fun _ => eq_refl)) as A. cbv zeta in A. 
    assert (Q0 : pts s0 "Q"%string 0 = pzero C) by reflexivity. assert (U0 : pts s0 "lut"%string 0 = pzero C) by reflexivity.
    clearbody s0.
    set (s1 := run precomp_wnaf_prog s0) in *. clearbody s1. destruct A as (A1 & A2 & A3).
    assert (I1 : forall i, arrs s1 "scalar"%string i = bytes_arr scalar i) by (intros i; rewrite A3; apply I0).
    pose proof (recode C s scalar s1 Hn I1) as B. cbv zeta in B. set (s2 := run (scalar_rwnaf_prog s) s1) in *. clearbody s2. destruct B as (B1 & B2 & B3).
    assert (I2 : forall i, arrs s2 "scalar"%string i = bytes_arr scalar i) by (intros i; rewrite B2 by discriminate; apply I1).
    set (pre := precomp_wnaf C P) in *. set (rnaf := scalar_rwnaf s scalar) in *.
    rewrite run_set, !eval_bin, eval_arr, !eval_num. cbn [bin]. replace (Z.of_nat (s_nd s) - 1) with (Z.of_nat (s_nd s - 1)) by lia. rewrite B1 by lia.
    set (top := nth (s_nd s - 1) rnaf 0). set (s3 := set_var C s2 "d" (Z.shiftr (top - 1) 1)).
    pose proof (run_lookup C s3 "Q"%string "j"%string precomp_ "precomp"%string (fun z => z)) as L. cbv zeta in L.
    specialize (L ltac:(discriminate) ltac:(discriminate) ltac:(discriminate) ltac:(reflexivity)). fold Q_ in L.
    change (vars s3 "d"%string) with (Z.shiftr (top - 1) 1) in L. change (pts s3) with (pts s2) in L. rewrite B3 in L. change (arrs s3) with (arrs s2) in L.
    assert (P3 : pts s3 = pts s1) by (exact B3).
    set (s4 := run (lookup_prog Q_ "j" precomp_) s3) in *. clearbody s4. destruct L as (L1 & L2 & _ & L4).
    rewrite (exec_down C), !eval_num.
    replace (rev (zrange 0 (Z.of_nat (s_nd s) - 2 + 1))) with (map Z.of_nat (rev (seq 0 (s_nd s - 1)))).
    2:{ rewrite map_rev. f_equal. unfold zrange. replace (Z.to_nat (Z.of_nat (s_nd s) - 2 + 1 - 0)) with (s_nd s - 1)%nat by lia. apply map_ext. intros a. lia. }
    fold (digit_add "j" precomp_). fold var_body.
    assert (Hpre : forall n, (n < 16)%nat -> pts s4 "precomp"%string (Z.of_nat n) = nth n pre (pzero C)).
    { intros n Hlt. rewrite (L2 "precomp"%string) by (cbn; intuition discriminate). rewrite P3. apply A1. exact Hlt. }
    pose proof (var_loop pre rnaf (s_nd s) (rev (seq 0 (s_nd s - 1))) s4) as V. cbv zeta in V.
    specialize (V ltac:(intros k Hk; apply in_rev, in_seq in Hk; lia) ltac:(intros k Hk; rewrite L4; apply B1; exact Hk) Hpre).
    rewrite rev_firstn_nth in V by (unfold rnaf, scalar_rwnaf; rewrite rwnaf_loop_length; lia).
    set (s5 := snd (turns C "i" var_body _ s4)) in *. clearbody s5. destruct V as (V1 & V2 & V3).
    assert (EQ4 : pts s4 "Q"%string 0 = lookup C (fun j => nth j pre (pzero C)) (Z.shiftr (top - 1) 1) (pzero C)).
    { rewrite L1. apply lookup_ext; [reflexivity| |].
      - rewrite (A2 "Q"%string) by (cbn; intuition discriminate). exact Q0.
      - intros j Hj. apply A1. exact Hj. }
    assert (EU4 : pts s4 "lut"%string 0 = pzero C).
    { rewrite (L2 "lut"%string) by (cbn; intuition discriminate). rewrite P3, (A2 "lut"%string) by (cbn; intuition discriminate). exact U0. }
    rewrite EQ4, EU4 in V1. unfold var_smul_rwnaf. cbv zeta. fold pre rnaf top. rewrite <- V1.
    assert (Pz : pts s5 "precomp"%string 0 = nth 0 pre (pzero C)).
    { rewrite (V2 "precomp"%string) by (cbn; intuition discriminate). exact (Hpre 0%nat ltac:(lia)). }
    assert (I5 : forall i, arrs s5 "scalar"%string i = bytes_arr scalar i) by (intros i; rewrite V3, L4; apply I2).
    set (s6 := run (PNeg lut_ (precomp_ (Num 0))) s5). set (s7 := run (PAdd lut_ lut_ Q_) s6).
    assert (E7 : pts s7 "lut"%string 0 = padd C (pneg C (nth 0 pre (pzero C))) (pts s5 "Q"%string 0)).
    { unfold s7, s6. cbn. unfold get_pt. cbn [fst snd]. rewrite Pz. reflexivity. }
    assert (E7q : pts s7 "Q"%string 0 = pts s5 "Q"%string 0) by reflexivity.
    assert (I7 : forall i, arrs s7 "scalar"%string i = bytes_arr scalar i) by exact I5. clearbody s7. clear s6.
    set (Qe := if (N.land (nth 0 scalar 0%N) 1 =? 0)%N then padd C (pneg C (nth 0 pre (pzero C))) (pts s5 "Q"%string 0) else pts s5 "Q"%string 0).
    set (s8 := run (PSel Q_ (Bin And (Arr "scalar" (Num 0)) (Num 1)) lut_ Q_) s7).
    assert (E8 : pts s8 "Q"%string 0 = Qe).
    { unfold s8. cbn [exec]. pose proof (scalar_bit s7 scalar I7) as SB. destruct (eval C s7 (Bin And (Arr "scalar" (Num 0)) (Num 1))) as [t v]. cbn [snd] in SB.
      unfold src, dst, lut_, Q_. cbn [loc eval fst snd]. rewrite pt_same, SB. unfold get_pt. cbn [fst snd]. rewrite E7, E7q. reflexivity. }
    clearbody s8. destruct (s_ed s).
    - rewrite (run_seq C). unfold Q_. rewrite !run_dbl, !pt_same, E8. reflexivity.
    - cbn [exec snd]. exact E8.
  Qed.
End Refine.
