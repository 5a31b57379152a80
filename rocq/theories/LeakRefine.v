(** The programs of LeakModel compute what the functions of EcLadderModel compute. *)
From Coq Require Import String List ZArith Bool Lia.
From Verif Require Import Bytes EcLadderModel LeakModel LeakProofs.
Import ListNotations.
Local Open Scope list_scope.
Local Open Scope Z_scope.
Arguments Z.shiftr : simpl never.
Arguments Z.shiftl : simpl never.
Arguments Z.land : simpl never.
Arguments Z.lor : simpl never.
Arguments Z.lxor : simpl never.
Arguments Z.sub : simpl never.
Arguments Z.add : simpl never.
Arguments Z.mul : simpl never.
Arguments i8 : simpl never.

Section Refine.
  Context (C : group).
  Notation run p st := (snd (exec C p st)).
  (** Variables, arrays and points outside the lists are unchanged. *)
  Definition vsame (S : list string) (st st' : store C) : Prop := forall x, ~ In x S -> vars st' x = vars st x.
  Definition psame (S : list string) (st st' : store C) : Prop := forall x, ~ In x S -> forall i, pts st' x i = pts st x i.
  Lemma vsame_refl S st : vsame S st st. Proof. intros x _. reflexivity. Qed.
  Lemma psame_refl S st : psame S st st. Proof. intros x _ i. reflexivity. Qed.
  Lemma vsame_trans S st1 st2 st3 : vsame S st1 st2 -> vsame S st2 st3 -> vsame S st1 st3.
  Proof. intros A B x H. rewrite (B x H). apply A. exact H. Qed.
  Lemma psame_trans S st1 st2 st3 : psame S st1 st2 -> psame S st2 st3 -> psame S st1 st3.
  Proof. intros A B x H i. rewrite (B x H). apply A. exact H. Qed.
  Lemma vsame_set S st x v : In x S -> vsame S st (set_var C st x v).
  Proof. intros H y N. cbn. destruct (String.eqb_spec y x) as [->|]; [contradiction|reflexivity]. Qed.
  Lemma run_seq p q st : run (Seq p q) st = run q (run p st).
  Proof. apply exec_seq. Qed.
  Lemma run_set x e st : run (Set_ x e) st = set_var C st x (snd (eval C st e)).
  Proof. cbn [exec]. destruct (eval C st e). reflexivity. Qed.
  Lemma set_same st x v : vars (set_var C st x v) x = v.
  Proof. cbn. rewrite String.eqb_refl. reflexivity. Qed.
  Lemma eval_bin st o e1 e2 : snd (eval C st (Bin o e1 e2)) = bin o (snd (eval C st e1)) (snd (eval C st e2)).
  Proof. cbn [eval]. destruct (eval C st e1), (eval C st e2). reflexivity. Qed.
  Lemma eval_arr st a e : snd (eval C st (Arr a e)) = arrs st a (snd (eval C st e)).
  Proof. cbn [eval]. destruct (eval C st e). reflexivity. Qed.
  Lemma eval_i8 st e : snd (eval C st (I8 e)) = i8 (snd (eval C st e)).
  Proof. cbn [eval]. destruct (eval C st e). reflexivity. Qed.
  Lemma eval_var st x : snd (eval C st (Var x)) = vars st x. Proof. reflexivity. Qed.
  Lemma eval_num st z : snd (eval C st (Num z)) = z. Proof. reflexivity. Qed.

  (** ** scalar_get_bit and the recoding *)
  Section Recode.
    Context (nb : nat) (inp : list N).
    Let ok_in (st : store C) : Prop := forall i, arrs st "scalar" i = bytes_arr inp i.
    Definition bitv : list string := ["bit"; "idx"; "widx"; "rshift"]%string.
    Lemma get_bit st e n : ok_in st -> snd (eval C st e) = Z.of_nat n ->
      let st' := run (scalar_get_bit_prog nb "scalar" e) st in
      vars st' "bit"%string = scalar_get_bit nb inp n /\ vsame bitv st st' /\ arrs st' = arrs st /\ pts st' = pts st.
    Proof.
      intros I E. cbv zeta. set (st1 := set_var C st "idx" (Z.of_nat n)). set (st2 := set_var C st1 "widx" (Z.shiftr (Z.of_nat n) 3)).
      set (st3 := set_var C st2 "rshift" (Z.land (Z.of_nat n) 7)).
      assert (E3 : run (scalar_get_bit_prog nb "scalar" e) st = run (If (Bin Lt (Var "idx") (Num 0)) (Set_ "bit" (Num 0))
          (If (Bin Ge (Var "widx") (Num (Z.of_nat nb))) (Set_ "bit" (Num 0)) (Set_ "bit" (Bin And (Bin Shr (Arr "scalar" (Var "widx")) (Var "rshift")) (Num 1))))) st3).
      { unfold scalar_get_bit_prog. rewrite !run_seq, (run_set "idx"), E. fold st1. rewrite (run_set "widx"), eval_bin, eval_var, eval_num. change (vars st1 "idx"%string) with (Z.of_nat n).
        cbn [bin]. fold st2. rewrite (run_set "rshift"), eval_bin, eval_var, eval_num. change (vars st2 "idx"%string) with (Z.of_nat n). cbn [bin]. fold st3. reflexivity. }
      rewrite E3. clear E3.
      assert (V3 : vsame bitv st st3).
      { eapply vsame_trans; [|apply vsame_set; cbn; auto]. eapply vsame_trans; [|apply vsame_set; cbn; auto]. apply vsame_set; cbn; auto. }
      cbn [exec eval bin]. change (vars st3 "idx"%string) with (Z.of_nat n). change (vars st3 "widx"%string) with (Z.shiftr (Z.of_nat n) 3).
      replace (Z.of_nat n <? 0) with false by (symmetry; apply Z.ltb_ge; lia). cbn [zb]. change (0 =? 0) with true. cbn iota.
      assert (W : Z.shiftr (Z.of_nat n) 3 = Z.of_nat (n / 8)). { rewrite Z.shiftr_div_pow2 by lia. change (2 ^ 3) with (Z.of_nat 8). symmetry. apply Nat2Z.inj_div. }
      assert (M : Z.land (Z.of_nat n) 7 = Z.of_nat (n mod 8)). { change 7 with (Z.ones 3). rewrite Z.land_ones by lia. change (2 ^ 3) with (Z.of_nat 8). symmetry. apply Nat2Z.inj_mod. }
      unfold scalar_get_bit. destruct (Nat.leb_spec nb (n / 8)) as [H|H].
      - replace (Z.of_nat nb <=? Z.shiftr (Z.of_nat n) 3) with true by (symmetry; apply Z.leb_le; lia). cbn [zb]. change (1 =? 0) with false. cbn iota. cbn [snd].
        split; [apply set_same|]. split; [eapply vsame_trans; [exact V3|apply vsame_set; cbn; auto]|auto].
      - replace (Z.of_nat nb <=? Z.shiftr (Z.of_nat n) 3) with false by (symmetry; apply Z.leb_gt; lia). cbn [zb]. change (0 =? 0) with true. cbn iota. cbn [snd].
        split; [|split; [eapply vsame_trans; [exact V3|apply vsame_set; cbn; auto]|auto]].
        rewrite set_same. change (vars st3 "rshift"%string) with (Z.land (Z.of_nat n) 7). change (arrs st3 "scalar"%string) with (arrs st "scalar"%string).
        rewrite I, W, M. unfold bytes_arr. rewrite Nat2Z.id. reflexivity.
    Qed.
    Definition recv : list string := ["window"; "d8"; "i"; "bit"; "idx"; "widx"; "rshift"]%string.
    Lemma vsame_weaken S S' st st' : (forall x, In x S -> In x S') -> vsame S st st' -> vsame S' st st'.
    Proof. intros H V x N. apply V. intros K. apply N. auto. Qed.
    Lemma add_bit_run st i n w : ok_in st -> vars st "i"%string = Z.of_nat i -> vars st "window"%string = w ->
      let st' := run (add_bit nb "scalar" (Z.of_nat n)) st in
      vars st' "window"%string = i8 (w + Z.shiftl (scalar_get_bit nb inp ((i + 1) * RADIX + n)) (Z.of_nat n)) /\ vars st' "i"%string = Z.of_nat i /\
      vsame recv st st' /\ arrs st' = arrs st /\ pts st' = pts st /\ vars st' "d8"%string = vars st "d8"%string.
    Proof.
      intros I Ei Ew. cbv zeta. unfold add_bit. rewrite run_seq, run_set.
      pose proof (get_bit st (Bin Add (Bin Mul (Bin Add (Var "i") (Num 1)) (Num 5)) (Num (Z.of_nat n))) ((i + 1) * RADIX + n) I) as G.
      assert (E : snd (eval C st (Bin Add (Bin Mul (Bin Add (Var "i") (Num 1)) (Num 5)) (Num (Z.of_nat n)))) = Z.of_nat ((i + 1) * RADIX + n)).
      { rewrite !eval_bin, eval_var, !eval_num, Ei. cbn [bin]. unfold RADIX. lia. }
      specialize (G E). cbv zeta in G. set (st1 := run (scalar_get_bit_prog nb "scalar" _) st) in *. clearbody st1. destruct G as (G1 & G2 & G3 & G4).
      assert (W1 : vars st1 "window"%string = w) by (rewrite G2; [exact Ew|cbn; intuition discriminate]).
      assert (I1 : vars st1 "i"%string = Z.of_nat i) by (rewrite G2; [exact Ei|cbn; intuition discriminate]).
      assert (D1 : vars st1 "d8"%string = vars st "d8"%string) by (rewrite G2; [reflexivity|cbn; intuition discriminate]).
      rewrite eval_i8, !eval_bin, !eval_var, eval_num, W1, G1. cbn [bin].
      split; [apply set_same|]. split; [exact I1|]. split; [|auto].
      eapply vsame_trans; [eapply vsame_weaken; [|exact G2]|apply vsame_set; cbn; auto]. cbn. intuition.
    Qed.
    Definition rw_body : stmt :=
      Seq (Set_ "d8" (I8 (Bin Sub (Bin And (Var "window") (Num 63)) (Num 32))))
     (Seq (Put "rnaf" (Var "i") (Var "d8"))
     (Seq (Set_ "window" (I8 (Bin Shr (Bin Sub (Var "window") (Var "d8")) (Num 5))))
     (Seq (add_bit nb "scalar" 1) (Seq (add_bit nb "scalar" 2) (Seq (add_bit nb "scalar" 3) (Seq (add_bit nb "scalar" 4) (add_bit nb "scalar" 5))))))).
    Lemma rw_body_run st i w : ok_in st -> vars st "i"%string = Z.of_nat i -> vars st "window"%string = w ->
      let st' := run rw_body st in
      vars st' "window"%string = snd (rwnaf_step nb inp i w) /\ arrs st' "rnaf"%string (Z.of_nat i) = fst (rwnaf_step nb inp i w) /\
      (forall a z, (a <> "rnaf"%string \/ z <> Z.of_nat i) -> arrs st' a z = arrs st a z) /\ vsame recv st st' /\ pts st' = pts st.
    Proof.
      intros I Ei Ew. cbv zeta. unfold rw_body. rewrite !run_seq, !run_set.
      rewrite eval_i8, !eval_bin, eval_var, !eval_num, Ew. cbn [bin]. set (d := i8 (Z.land w 63 - 32)).
      set (st1 := set_var C st "d8" d). assert (P : run (Put "rnaf" (Var "i") (Var "d8")) st1 = set_arr C st1 "rnaf" (Z.of_nat i) d).
      { cbn [exec eval snd]. change (vars st1 "i"%string) with (vars st "i"%string). rewrite Ei. reflexivity. }
      rewrite P. clear P. set (st2 := set_arr C st1 "rnaf" (Z.of_nat i) d).
      assert (W2 : vars st2 "window"%string = w) by exact Ew.
      rewrite eval_i8, !eval_bin, !eval_var, !eval_num, W2. change (vars st2 "d8"%string) with d. cbn [bin].
      set (st3 := set_var C st2 "window" (i8 (Z.shiftr (w - d) 5))).
      assert (I3 : ok_in st3) by exact I. assert (Ei3 : vars st3 "i"%string = Z.of_nat i) by exact Ei.
      assert (W3 : vars st3 "window"%string = i8 (Z.shiftr (w - d) 5)) by reflexivity.
      assert (V3 : vsame recv st st3). { unfold st3. eapply vsame_trans; [|apply vsame_set; cbn; auto]. change (vsame recv st st1). apply vsame_set. cbn; auto. }
      assert (P3 : pts st3 = pts st) by reflexivity. assert (A3 : arrs st3 = arrs st2) by reflexivity.
      clearbody st3.
      pose proof (add_bit_run st3 i 1 _ I3 Ei3 W3) as B1. cbv zeta in B1. change (Z.of_nat 1) with 1 in B1. set (s1 := run (add_bit nb "scalar" 1) st3) in *. clearbody s1.
      destruct B1 as (b11 & b12 & b13 & b14 & b15 & _).
      assert (Is1 : ok_in s1) by (intros z; rewrite b14; apply I3).
      pose proof (add_bit_run s1 i 2 _ Is1 b12 b11) as B2. cbv zeta in B2. change (Z.of_nat 2) with 2 in B2. set (s2 := run (add_bit nb "scalar" 2) s1) in *. clearbody s2.
      destruct B2 as (b21 & b22 & b23 & b24 & b25 & _).
      assert (Is2 : ok_in s2) by (intros z; rewrite b24; apply Is1).
      pose proof (add_bit_run s2 i 3 _ Is2 b22 b21) as B3. cbv zeta in B3. change (Z.of_nat 3) with 3 in B3. set (s3 := run (add_bit nb "scalar" 3) s2) in *. clearbody s3.
      destruct B3 as (b31 & b32 & b33 & b34 & b35 & _).
      assert (Is3 : ok_in s3) by (intros z; rewrite b34; apply Is2).
      pose proof (add_bit_run s3 i 4 _ Is3 b32 b31) as B4. cbv zeta in B4. change (Z.of_nat 4) with 4 in B4. set (s4 := run (add_bit nb "scalar" 4) s3) in *. clearbody s4.
      destruct B4 as (b41 & b42 & b43 & b44 & b45 & _).
      assert (Is4 : ok_in s4) by (intros z; rewrite b44; apply Is3).
      pose proof (add_bit_run s4 i 5 _ Is4 b42 b41) as B5. cbv zeta in B5. change (Z.of_nat 5) with 5 in B5. set (s5 := run (add_bit nb "scalar" 5) s4) in *. clearbody s5.
      destruct B5 as (b51 & b52 & b53 & b54 & b55 & _).
      split; [exact b51|]. split; [|split; [|split]].
      - rewrite b54, b44, b34, b24, b14, A3. cbn. rewrite Z.eqb_refl. reflexivity.
      - intros a z H. rewrite b54, b44, b34, b24, b14, A3. cbn. destruct (String.eqb_spec a "rnaf") as [->|]; [|reflexivity].
        destruct (Z.eqb_spec z (Z.of_nat i)) as [->|]; [|reflexivity]. destruct H as [H|H]; [exfalso; apply H; reflexivity|exfalso; apply H; reflexivity].
      - eapply vsame_trans; [exact V3|]. eapply vsame_trans; [exact b13|]. eapply vsame_trans; [exact b23|]. eapply vsame_trans; [exact b33|].
        eapply vsame_trans; [exact b43|exact b53].
      - congruence.
    Qed.
    Lemma rw_loop n : forall i st w, ok_in st -> vars st "window"%string = w ->
      let st' := snd (turns C "i" rw_body (zrange (Z.of_nat i) (Z.of_nat (i + n))) st) in
      let L := rwnaf_loop nb inp n i w in
      vars st' "window"%string = nth n L 0 /\
      (forall k, (k < n)%nat -> arrs st' "rnaf"%string (Z.of_nat (i + k)) = nth k L 0) /\
      (forall z, z < Z.of_nat i -> arrs st' "rnaf"%string z = arrs st "rnaf"%string z) /\
      (forall a, a <> "rnaf"%string -> forall z, arrs st' a z = arrs st a z) /\ vsame recv st st' /\ pts st' = pts st.
    Proof.
      induction n as [|n IH]; intros i st w I Ew; cbv zeta.
      - replace (zrange (Z.of_nat i) (Z.of_nat (i + 0))) with (@nil Z). 2:{ unfold zrange. replace (Z.to_nat _) with 0%nat by lia. reflexivity. }
        cbn [turns snd rwnaf_loop nth]. split; [exact Ew|]. split; [intros; lia|]. repeat split; intros; try reflexivity.
      - rewrite zrange_cons by lia. replace (Z.of_nat i + 1) with (Z.of_nat (S i)) by lia. replace (i + S n)%nat with (S i + n)%nat by lia.
        cbn [turns]. cbv zeta. cbn [snd].
        pose proof (rw_body_run (set_var C st "i" (Z.of_nat i)) i w I (set_same _ _ _) Ew) as B. cbv zeta in B.
        set (s1 := run rw_body (set_var C st "i" (Z.of_nat i))) in *. clearbody s1. destruct B as (B1 & B2 & B3 & B4 & B5).
        assert (I1 : ok_in s1). { intros z. rewrite B3; [apply I|]. left. discriminate. }
        specialize (IH (S i) s1 _ I1 B1). cbv zeta in IH. set (st' := snd (turns C "i" rw_body _ s1)) in *. clearbody st'.
        cbn [rwnaf_loop]. destruct (rwnaf_step nb inp i w) as [d w']. cbn [fst snd] in *. destruct IH as (H1 & H2 & H3 & H4 & H5 & H6).
        split; [exact H1|]. split; [|split; [|split; [|split]]].
        + intros [|k] Hk; cbn [nth].
          * rewrite Nat.add_0_r. rewrite H3 by lia. exact B2.
          * replace (i + S k)%nat with (S i + k)%nat by lia. apply H2. lia.
        + intros z Hz. rewrite H3 by lia. rewrite B3 by (right; lia). reflexivity.
        + intros a Ha z. rewrite (H4 a Ha). rewrite B3 by (left; exact Ha). reflexivity.
        + eapply vsame_trans; [|exact H5]. eapply vsame_trans; [|exact B4]. apply vsame_set. cbn; auto.
        + rewrite H6, B5. reflexivity.
    Qed.
  End Recode.
  Lemma rwnaf_loop_length nb inp n : forall i w, List.length (rwnaf_loop nb inp n i w) = S n.
  Proof. induction n as [|n IH]; intros i w; [reflexivity|]. cbn [rwnaf_loop]. destruct (rwnaf_step nb inp i w). cbn [List.length]. rewrite IH. reflexivity. Qed.
  Lemma recode s inp st : (1 <= s_nd s)%nat -> (forall i, arrs st "scalar"%string i = bytes_arr inp i) ->
    let st' := run (scalar_rwnaf_prog s) st in
    (forall k, (k < s_nd s)%nat -> arrs st' "rnaf"%string (Z.of_nat k) = nth k (scalar_rwnaf s inp) 0) /\
    (forall a, a <> "rnaf"%string -> forall z, arrs st' a z = arrs st a z) /\ pts st' = pts st.
  Proof.
    intros Hn I. cbv zeta. unfold scalar_rwnaf_prog. rewrite !run_seq. fold (rw_body (s_nb s)).
    rewrite run_set, eval_i8, !eval_bin, eval_arr, !eval_num, I. cbn [bin]. change (bytes_arr inp 0) with (Z.of_N (nth 0 inp 0%N)).
    set (w := i8 (Z.lor (Z.land (Z.of_N (nth 0 inp 0%N)) 63) 1)). set (st1 := set_var C st "window" w).
    rewrite (proj2 (exec_for _ _ _ _ _ _)), !eval_num.
    pose proof (rw_loop (s_nb s) inp (s_nd s - 1) 0 st1 w I eq_refl) as R. cbv zeta in R. change (Z.of_nat 0) with 0 in R. cbn [Nat.add] in R.
    replace (Z.of_nat (s_nd s - 1)) with (Z.of_nat (s_nd s) - 1) in R by lia.
    set (st2 := snd (turns C "i" _ _ st1)) in *. clearbody st2. destruct R as (R1 & R2 & _ & R4 & _ & R6).
    unfold scalar_rwnaf. change (DRADIX_WNAF - 1) with 63. fold w. set (L := rwnaf_loop (s_nb s) inp (s_nd s - 1) 0 w) in *.
    cbn [exec eval fst snd]. split; [|split].
    - intros k Hk. cbn. destruct (Z.eqb_spec (Z.of_nat k) (Z.of_nat (s_nd s) - 1)) as [E|E].
      + replace k with (s_nd s - 1)%nat by lia. exact R1.
      + apply R2. lia.
    - intros a Ha z. cbn. destruct (String.eqb_spec a "rnaf") as [->|]; [contradiction|]. cbn. apply R4. exact Ha.
    - exact R6.
  Qed.

  (** ** Operations on points *)
  Lemma run_pt_same b nm i (P : pt C) st : b <> nm -> forall z, pts (set_pt C st (nm, i) P) b z = pts st b z.
  Proof. intros H z. cbn. destruct (String.eqb_spec b nm); [contradiction|reflexivity]. Qed.
  Lemma pt_same nm i (P : pt C) st : pts (set_pt C st (nm, i) P) nm i = P.
  Proof. cbn. rewrite String.eqb_refl, Z.eqb_refl. reflexivity. Qed.
  Lemma run_dbl nm nm2 st : run (PDbl (At nm (Num 0)) (At nm2 (Num 0))) st = set_pt C st (nm, 0) (pdouble C (pts st nm2 0)).
  Proof. reflexivity. Qed.
  Lemma iter_in A n (f : A -> A) q : Nat.iter n f (f q) = Nat.iter (S n) f q.
  Proof. induction n as [|n IH]; [reflexivity|]. change (f (Nat.iter n f (f q)) = f (Nat.iter (S n) f q)). rewrite IH. reflexivity. Qed.
  Lemma run_dbls nm x l : forall st, let st' := snd (turns C x (PDbl (At nm (Num 0)) (At nm (Num 0))) l st) in
    pts st' nm 0 = Nat.iter (List.length l) (pdouble C) (pts st nm 0) /\ psame [nm] st st' /\ vsame [x] st st' /\ arrs st' = arrs st.
  Proof.
    induction l as [|v l IH]; intros st; cbv zeta; cbn [turns snd List.length]; [repeat split; auto|]. cbv zeta. cbn [snd].
    rewrite run_dbl. specialize (IH (set_pt C (set_var C st x v) (nm, 0) (pdouble C (pts (set_var C st x v) nm 0)))). cbv zeta in IH. destruct IH as (A & B & V & D).
    split; [|split; [|split]].
    - rewrite A, pt_same. apply iter_in.
    - intros y H i. rewrite (B y H i). cbn. destruct (String.eqb_spec y nm) as [->|]; [exfalso; apply H; left; reflexivity|reflexivity].
    - intros y H. rewrite (V y H). cbn. destruct (String.eqb_spec y x) as [->|]; [exfalso; apply H; left; reflexivity|reflexivity].
    - rewrite D. reflexivity.
  Qed.
  Lemma fold_lookup_ext (t1 t2 : nat -> pt C) d l : (forall j, In j l -> t1 j = t2 j) -> forall old,
    fold_left (fun acc j => let diff := Z.land (1 - Z.shiftr (- Z.lxor d (Z.of_nat j)) 31) 1 in if diff =? 0 then acc else t1 j) l old =
    fold_left (fun acc j => let diff := Z.land (1 - Z.shiftr (- Z.lxor d (Z.of_nat j)) 31) 1 in if diff =? 0 then acc else t2 j) l old.
  Proof.
    induction l as [|j l IH]; intros H old; [reflexivity|]. cbn [fold_left]. cbv zeta. rewrite (H j) by (left; reflexivity). apply IH. intros k Hk. apply H. right. exact Hk.
  Qed.
  (** The look-up program: [tn] is the table's name, [f j] the index of its entry [j]. *)
  Lemma run_lookup st nm j tbl tn (f : Z -> Z) :
    tn <> nm -> j <> "diff"%string -> j <> "d"%string ->
    (forall st' : store C, vsame ["diff"%string; j] st st' -> snd (loc C st' (tbl (Var j))) = (tn, f (vars st' j))) ->
    let st' := run (lookup_prog (At nm (Num 0)) j tbl) st in
    pts st' nm 0 = lookup C (fun k => pts st tn (f (Z.of_nat k))) (vars st "d"%string) (pts st nm 0) /\
    psame [nm] st st' /\ vsame ["diff"%string; j] st st' /\ arrs st' = arrs st.
  Proof.
    intros Ht Hj Hd Hl. cbv zeta. unfold lookup_prog. rewrite (proj2 (exec_for _ _ _ _ _ _)), !eval_num.
    assert (Z16 : zrange 0 16 = map Z.of_nat (seq 0 16)) by reflexivity. rewrite Z16. unfold lookup.
    generalize (seq 0 16). intros l. clear Z16.
    set (body := Seq _ _).
    assert (G : forall l st1, vsame ["diff"%string; j] st st1 -> psame [nm] st st1 -> arrs st1 = arrs st ->
      let st' := snd (turns C j body (map Z.of_nat l) st1) in
      pts st' nm 0 = fold_left (fun acc k => let diff := Z.land (1 - Z.shiftr (- Z.lxor (vars st "d"%string) (Z.of_nat k)) 31) 1 in
         if diff =? 0 then acc else pts st tn (f (Z.of_nat k))) l (pts st1 nm 0) /\
      psame [nm] st st' /\ vsame ["diff"%string; j] st st' /\ arrs st' = arrs st).
    { clear l. induction l as [|k l IH]; intros st1 V P A; cbv zeta; cbn [map turns fold_left snd]; [auto|]. cbv zeta. cbn [snd].
      set (s0 := set_var C st1 j (Z.of_nat k)).
      assert (V0 : vsame ["diff"%string; j] st s0) by (eapply vsame_trans; [exact V|apply vsame_set; cbn; auto]).
      set (dv := Z.land (1 - Z.shiftr (- Z.lxor (vars st "d"%string) (Z.of_nat k)) 31) 1).
      assert (E : run body s0 = set_pt C (set_var C s0 "diff" dv) (nm, 0) (if dv =? 0 then pts st1 nm 0 else pts st tn (f (Z.of_nat k)))).
      { unfold body. rewrite run_seq, run_set, !eval_bin, !eval_var, !eval_num. unfold s0 at 3. rewrite set_same.
        rewrite (V0 "d"%string) by (cbn; intros [H|[H|[]]]; congruence). cbn [bin].
        change (0 - Z.lxor (vars st "d"%string) (Z.of_nat k)) with (- Z.lxor (vars st "d"%string) (Z.of_nat k)). fold dv.
        set (s1 := set_var C s0 "diff" dv).
        assert (V1 : vsame ["diff"%string; j] st s1) by (eapply vsame_trans; [exact V0|apply vsame_set; cbn; auto]).
        cbn [exec]. unfold src, dst. cbn [loc eval].
        pose proof (Hl s1 V1) as L. destruct (loc C s1 (tbl (Var j))) as [tl ll]. cbn [snd] in L. subst ll. cbn [snd fst].
        assert (Ed : vars s1 "diff"%string = dv) by apply set_same. rewrite Ed.
        assert (Ej : vars s1 j = Z.of_nat k).
        { unfold s1. cbn. destruct (String.eqb_spec j "diff"); [contradiction|]. rewrite String.eqb_refl. reflexivity. }
        rewrite Ej. unfold get_pt. cbn [fst snd]. change (pts s1) with (pts st1). rewrite (P tn) by (intros [H|[]]; congruence). reflexivity. }
      rewrite E. set (s2 := set_pt C _ _ _).
      assert (V2 : vsame ["diff"%string; j] st s2) by (eapply vsame_trans; [exact V0|]; intros y Hy; cbn; destruct (String.eqb_spec y "diff") as [->|]; [exfalso; apply Hy; left; reflexivity|reflexivity]).
      assert (P2 : psame [nm] st s2). { intros y Hy z. unfold s2. rewrite run_pt_same by (intros ->; apply Hy; left; reflexivity). exact (P y Hy z). }
      specialize (IH s2 V2 P2 A). cbv zeta in IH. destruct IH as (R1 & R2). split; [|exact R2]. rewrite R1. unfold s2. rewrite pt_same. reflexivity. }
    specialize (G l st (vsame_refl _ _) (psame_refl _ _) eq_refl). cbv zeta in G. exact G.
  Qed.
  Lemma run_digit st : let st' := run digit_prog st in let d := vars st "d"%string in
    vars st' "d"%string = digit_idx d /\ vars st' "is_neg"%string = digit_neg d /\ vsame ["d"; "is_neg"]%string st st' /\ arrs st' = arrs st /\ pts st' = pts st.
  Proof.
    cbv zeta. unfold digit_prog. rewrite !run_seq, (run_set "is_neg"), !eval_bin, !eval_var, !eval_num. cbn [bin]. set (d := vars st "d"%string).
    set (s1 := set_var C st "is_neg" (Z.land (Z.shiftr d 31) 1)).
    rewrite (run_set "d" _ s1), !eval_bin, !eval_var, !eval_num. change (vars s1 "d"%string) with d. change (vars s1 "is_neg"%string) with (digit_neg d). cbn [bin].
    change (0 - digit_neg d) with (- digit_neg d). set (s2 := set_var C s1 "d" _).
    rewrite (run_set "d" _ s2), !eval_bin, !eval_var, !eval_num. change (vars s2 "d"%string) with (Z.lxor d (- digit_neg d) + digit_neg d). cbn [bin].
    split; [reflexivity|]. split; [reflexivity|]. split; [|auto].
    eapply vsame_trans; [|apply vsame_set; cbn; auto]. eapply vsame_trans; [|apply vsame_set; cbn; auto]. apply vsame_set; cbn; auto.
  Qed.
  Lemma run_negate st : let st' := run negate_prog st in
    pts st' "lut"%string 0 = (if vars st "is_neg"%string =? 0 then pts st "lut"%string 0 else pneg C (pts st "lut"%string 0)) /\
    psame ["lut"; "out"]%string st st' /\ vars st' = vars st /\ arrs st' = arrs st.
  Proof.
    cbv zeta. unfold negate_prog. rewrite run_seq. split; [|split; [|split]]; try reflexivity.
    intros y Hy z. cbn in Hy. cbn. destruct (String.eqb_spec y "lut") as [->|]; [exfalso; apply Hy; auto|]. destruct (String.eqb_spec y "out") as [->|]; [exfalso; apply Hy; auto|]. reflexivity.
  Qed.
  Lemma nth_set_nth (l : list (pt C)) i v k d : (i < List.length l)%nat -> nth k (set_nth C l i v) d = if (k =? i)%nat then v else nth k l d.
  Proof.
    revert i k. induction l as [|h t IH]; intros i k H; [cbn in H; lia|]. destruct i, k; cbn; try reflexivity. apply IH. cbn in H. lia.
  Qed.
  Lemma set_nth_len (l : list (pt C)) i v : List.length (set_nth C l i v) = List.length l.
  Proof. revert i. induction l as [|h t IH]; intros [|i]; cbn; auto. Qed.
  Lemma run_precomp st P : pts st "P"%string 0 = P -> (forall z, pts st "precomp"%string z = pzero C) ->
    let st' := run precomp_wnaf_prog st in
    (forall k, (k < 16)%nat -> pts st' "precomp"%string (Z.of_nat k) = nth k (precomp_wnaf C P) (pzero C)) /\
    psame ["precomp"]%string st st' /\ arrs st' = arrs st.
  Proof.
    intros EP E0. cbv zeta. unfold precomp_wnaf_prog. rewrite !run_seq. rewrite (proj2 (exec_for _ _ _ _ _ _)), !eval_num.
    set (s0 := run (PDbl _ _) _).
    assert (Z16 : zrange 1 16 = map Z.of_nat (seq 1 15)) by reflexivity. rewrite Z16. unfold precomp_wnaf.
    set (t0 := set_nth C (set_nth C (repeat (pzero C) 16) 0 P) 15 (pdouble C (nth 0 (set_nth C (repeat (pzero C) 16) 0 P) (pzero C)))).
    assert (H0 : forall k, (k < 16)%nat -> pts s0 "precomp"%string (Z.of_nat k) = nth k t0 (pzero C)).
    { intros k Hk. unfold s0. cbn. do 16 (destruct k as [|k]; [cbn; unfold get_pt; cbn [fst snd]; rewrite ?E0, ?EP; reflexivity|]). lia. }
    assert (Q0 : psame ["precomp"]%string st s0).
    { intros y Hy z. cbn in Hy. unfold s0. cbn. destruct (String.eqb_spec y "precomp") as [->|]; [exfalso; apply Hy; auto|reflexivity]. }
    assert (A0 : arrs s0 = arrs st) by reflexivity. assert (L0 : List.length t0 = 16%nat) by reflexivity. clearbody s0 t0.
    assert (G : forall l t s, (forall i, In i l -> (1 <= i < 16)%nat) -> List.length t = 16%nat -> (forall k, (k < 16)%nat -> pts s "precomp"%string (Z.of_nat k) = nth k t (pzero C)) ->
       let s' := snd (turns C "i" (PAdd (precomp_ (Var "i")) (precomp_ (Num 15)) (precomp_ (Bin Sub (Var "i") (Num 1)))) (map Z.of_nat l) s) in
       (forall k, (k < 16)%nat -> pts s' "precomp"%string (Z.of_nat k) =
          nth k (fold_left (fun t i => set_nth C t i (padd C (nth 15 t (pzero C)) (nth (i - 1) t (pzero C)))) l t) (pzero C)) /\
       psame ["precomp"]%string s s' /\ arrs s' = arrs s).
    { induction l as [|i l IH]; intros t s Hi Lt H; cbv zeta; cbn [map turns snd fold_left]; [split; [exact H|split; [apply psame_refl|reflexivity]]|]. cbv zeta. cbn [snd].
      set (v := padd C (nth 15 t (pzero C)) (nth (i - 1) t (pzero C))).
      assert (B : (1 <= i < 16)%nat) by (apply Hi; left; reflexivity).
      assert (E : run (PAdd (precomp_ (Var "i")) (precomp_ (Num 15)) (precomp_ (Bin Sub (Var "i") (Num 1)))) (set_var C s "i" (Z.of_nat i)) =
                  set_pt C (set_var C s "i" (Z.of_nat i)) ("precomp"%string, Z.of_nat i) v).
      { cbn. unfold get_pt. cbn [fst snd]. change (pts (set_var C s "i" (Z.of_nat i))) with (pts s).
        pose proof (H 15%nat ltac:(lia)) as H15. change (Z.of_nat 15) with 15 in H15. rewrite H15.
        replace (Z.of_nat i - 1) with (Z.of_nat (i - 1)) by lia. rewrite (H (i - 1)%nat) by lia. reflexivity. }
      rewrite E. specialize (IH (set_nth C t i v) (set_pt C (set_var C s "i" (Z.of_nat i)) ("precomp"%string, Z.of_nat i) v)). cbv zeta in IH.
      destruct IH as (R1 & R2 & R3).
      - intros k Hk. apply Hi. right. exact Hk.
      - rewrite set_nth_len. exact Lt.
      - intros k Hk. rewrite nth_set_nth by lia. cbn. destruct (Nat.eqb_spec k i) as [->|N]; [rewrite Z.eqb_refl; reflexivity|].
        destruct (Z.eqb_spec (Z.of_nat k) (Z.of_nat i)); [lia|]. apply H. exact Hk.
      - split; [exact R1|]. split; [|exact R3]. intros y Hy z. rewrite (R2 y Hy z). cbn in Hy. cbn. destruct (String.eqb_spec y "precomp") as [->|]; [exfalso; apply Hy; auto|reflexivity]. }
    specialize (G (seq 1 15) t0 s0). cbv zeta in G. destruct G as (R1 & R2 & R3); [|exact L0|exact H0|].
    { intros i Hi. apply in_seq in Hi. lia. }
    split; [exact R1|]. split; [eapply psame_trans; [exact Q0|exact R2]|]. rewrite R3. exact A0.
  Qed.
End Refine.
