(** The loops on coordinates follow the loops on points (EcLadderModel.v), step by step. *)
From Coq Require Import ZArith NArith List Bool Lia.
From Verif Require Import Bytes BytesProofs EcFormulaSpec EcFormulaModel EcLadderModel EcSpec EcLadderProofs EcCoordModel.
Import ListNotations.
Local Open Scope Z_scope.

Lemma select_correct {A} (tbl : nat -> A) d old : 0 <= d < 16 -> select tbl d old = tbl (Z.to_nat d).
Proof.
  intros H. assert (Hd : d = Z.of_nat (Z.to_nat d)) by lia.
  assert (Hn : (Z.to_nat d < 16)%nat) by lia. rewrite Hd at 1.
  remember (Z.to_nat d) as n eqn:E. clear E Hd H.
  do 16 (destruct n as [|n]; [reflexivity|]). lia.
Qed.
Lemma odd_idx d : odd_digit d -> 0 <= digit_idx d < 16.
Proof.
  intros [O R]. destruct (Z_lt_ge_dec 0 d) as [G|G].
  - destruct (digit_pos d) as [_ ->]; [lia|exact O|]. split; [apply Z.div_pos; lia|apply Z.div_lt_upper_bound; lia].
  - assert (d <> 0) by (intros ->; discriminate O).
    destruct (digit_negative d) as [_ ->]; [lia|exact O|]. split; [apply Z.div_pos; lia|apply Z.div_lt_upper_bound; lia].
Qed.
Lemma shiftr1 z : 0 <= z < 31 -> 0 <= Z.shiftr z 1 < 16.
Proof.
  intros H. rewrite Z.shiftr_div_pow2 by lia. change (2 ^ 1) with 2.
  split; [apply Z.div_pos; lia|apply Z.div_lt_upper_bound; lia].
Qed.

Section Sim.
Variable C : group.
Variable K : field.
Variable fam : family.
Variable c : consts K.
Variable one : F K.
Variable tab : nat -> nat -> aff K.
Variable junk : mem K.
Variable rel : prj K -> pt C -> Prop.
Variable arel : aff K -> pt C -> Prop.
Hypothesis r_dbl : forall same q P, rel q P -> rel (point_double K fam same c junk q) (padd C P P).
Hypothesis r_add : forall same q p P Q, rel q P -> rel p Q -> rel (point_add_proj K fam same c junk q p) (padd C P Q).
Hypothesis r_mixed : forall same q p P Q, rel q P -> arel p Q -> rel (point_add_mixed K fam same c junk q p) (padd C P Q).
Hypothesis r_neg : forall q P, rel q P -> rel (neg_prj K fam q) (pneg C P).
Hypothesis a_neg : forall q P, arel q P -> arel (neg_aff K fam q) (pneg C P).
Hypothesis r_load : forall q P, arel q P -> rel (prj_of_aff K one q) P.
Hypothesis r_inf : rel (inf_prj K fam one) (pzero C).
Variable s : shape.
Hypothesis ok : shape_ok s.
Hypothesis ed : s_ed s = match fam with Edwards => true | _ => false end.
Hypothesis cols : (0 < s_cols s)%nat.
Hypothesis r_table : forall j k, (j < s_cols s)%nat -> (k < 16)%nat -> arel (tab j k) (lut_cmb C j k).

Lemma precomp_sim P0 P : rel (precomp_first K fam c one junk P0) P -> forall k, (k < 16)%nat ->
  rel (entry_at K junk (coord_precomp K fam c one junk P0) k) (nth k (precomp_wnaf C P) (pzero C)).
Proof using r_dbl r_add.
  clear r_mixed a_neg r_load r_inf cols r_table r_neg ok ed arel tab s.
  intros H k L. unfold coord_precomp, precomp_wnaf, pdouble, entry_at.
  set (p0 := precomp_first K fam c one junk P0) in *. clearbody p0.
  lazy beta iota zeta delta [repeat seq fold_left set_entry set_nth nth Nat.eqb Nat.sub].
  do 16 (destruct k as [|k]; [cbv iota beta; repeat first [exact H | apply r_dbl | apply r_add]|]). lia.
Qed.
Lemma iter_sim n q P : rel q P -> rel (Nat.iter n (point_double K fam true c junk) q) (Nat.iter n (pdouble C) P).
Proof using r_dbl. intros H. induction n as [|n IH]; [exact H|]. cbn [Nat.iter nat_rect]. apply r_dbl, IH. Qed.

Section Rwnaf.
Variable pre : list (prj K).
Variable pre' : list (pt C).
Hypothesis P : forall k, (k < 16)%nat -> rel (entry_at K junk pre k) (nth k pre' (pzero C)).
Lemma turn_sim st st' d : odd_digit d -> rel (fst st) (fst st') ->
  rel (fst (coord_rwnaf_turn K fam c junk pre st d)) (fst (rwnaf_turn C pre' st' d)).
Proof using r_dbl r_add r_neg P.
  clear r_mixed a_neg r_load r_inf cols r_table ok ed arel tab s.
  intros O H. destruct st as [q l], st' as [Q L]. cbn [fst] in H. pose proof (odd_idx d O) as I.
  unfold coord_rwnaf_turn, rwnaf_turn. rewrite select_correct, lookup_correct by exact I. cbn [fst].
  apply r_add; [apply iter_sim; exact H|].
  assert (R : rel (entry_at K junk pre (Z.to_nat (digit_idx d))) (nth (Z.to_nat (digit_idx d)) pre' (pzero C)))
    by (apply P; lia).
  destruct (digit_neg d =? 0); [exact R|apply r_neg; exact R].
Qed.
Lemma turns_sim ds : Forall odd_digit ds -> forall st st', rel (fst st) (fst st') ->
  rel (fst (fold_left (coord_rwnaf_turn K fam c junk pre) ds st)) (fst (fold_left (rwnaf_turn C pre') ds st')).
Proof using r_dbl r_add r_neg P.
  clear r_mixed a_neg r_load r_inf cols r_table ok ed arel tab s.
  induction 1 as [|d ds O _ IH]; intros st st' H; cbn [fold_left]; [exact H|].
  apply IH, turn_sim; assumption.
Qed.
End Rwnaf.

Lemma Forall_firstn' {A} (Q : A -> Prop) n l : Forall Q l -> Forall Q (firstn n l).
Proof. apply Forall_firstn_. Qed.

Theorem rwnaf_sim scalar P0 P : bytes scalar -> length scalar = s_nb s ->
  rel (precomp_first K fam c one junk P0) P ->
  rel (coord_rwnaf K fam c one junk s scalar P0) (var_smul_rwnaf C s scalar P).
Proof using r_dbl r_add r_neg ok ed.
  clear r_mixed a_neg r_load r_inf cols r_table arel tab.
  intros B L H. pose proof (precomp_sim P0 P H) as PS.
  unfold coord_rwnaf, var_smul_rwnaf.
  set (pre := coord_precomp K fam c one junk P0) in *. set (pre' := precomp_wnaf C P) in *. clearbody pre pre'.
  destruct (scalar_rwnaf_spec s scalar ok B L) as (LEN & FA & TOP & _).
  set (rnaf := scalar_rwnaf s scalar) in *. clearbody rnaf.
  assert (ND : (s_nd s - 1 < length rnaf)%nat) by (destruct ok as (_ & N1 & _); lia).
  assert (OT : odd_digit (nth (s_nd s - 1) rnaf 0)) by (rewrite Forall_nth in FA; apply FA; exact ND).
  set (top := nth (s_nd s - 1) rnaf 0) in *. destruct OT as [_ OT].
  assert (I : 0 <= Z.shiftr (top - 1) 1 < 16) by (apply shiftr1; lia).
  rewrite select_correct, lookup_correct by exact I.
  set (k := Z.to_nat (Z.shiftr (top - 1) 1)). assert (HK : (k < 16)%nat) by lia. clearbody k.
  assert (FD : Forall odd_digit (rev (firstn (s_nd s - 1) rnaf))) by (apply Forall_rev, Forall_firstn', FA).
  pose proof (turns_sim pre pre' PS _ FD (entry_at K junk pre k, zero_prj K) (nth k pre' (pzero C), pzero C) (PS k HK)) as T.
  set (ds := rev (firstn (s_nd s - 1) rnaf)) in *. clearbody ds.
  destruct (fold_left (coord_rwnaf_turn K fam c junk pre) ds (entry_at K junk pre k, zero_prj K)) as [q l].
  destruct (fold_left (rwnaf_turn C pre') ds (nth k pre' (pzero C), pzero C)) as [Q L']. cbn [fst] in T.
  assert (R : rel (point_add_proj K fam true c junk (neg_prj K fam (entry_at K junk pre 0)) q)
                  (padd C (pneg C (nth 0 pre' (pzero C))) Q)) by (apply r_add; [apply r_neg, PS; lia|exact T]).
  assert (RR : rel (if N.eqb (N.land (nth 0 scalar 0%N) 1) 0
                    then point_add_proj K fam true c junk (neg_prj K fam (entry_at K junk pre 0)) q else q)
                   (if N.eqb (N.land (nth 0 scalar 0%N) 1) 0 then padd C (pneg C (nth 0 pre' (pzero C))) Q else Q))
    by (destruct (N.eqb _ 0); assumption).
  rewrite ed. destruct fam; [exact RR|exact RR|]. unfold pdouble. apply r_dbl, r_dbl, RR.
Qed.

Section Cmb.
Variable rnaf : list Z.
Hypothesis FA : Forall odd_digit rnaf.
Hypothesis LEN : length rnaf = s_nd s.
Lemma col_sim i j st st' : (j < s_cols s)%nat -> rel (fst st) (fst st') ->
  rel (fst (coord_cmb_col K fam c tab junk s rnaf i st j)) (fst (cmb_col C s rnaf i st' j)).
Proof.
  intros J H. destruct st as [q l], st' as [Q L]. cbn [fst] in H. unfold coord_cmb_col, cmb_col.
  destruct (s_nd s - 1 <? j * s_rows s + i)%nat eqn:E; [exact H|]. apply Nat.ltb_ge in E.
  assert (O : odd_digit (nth (j * s_rows s + i) rnaf 0)).
  { rewrite Forall_nth in FA. apply FA. destruct ok as (_ & N1 & _). lia. }
  set (d := nth (j * s_rows s + i) rnaf 0) in *. pose proof (odd_idx d O) as I.
  rewrite select_correct, lookup_correct by exact I. cbn [fst]. apply r_mixed; [exact H|].
  assert (R : arel (tab j (Z.to_nat (digit_idx d))) (lut_cmb C j (Z.to_nat (digit_idx d)))) by (apply r_table; lia).
  destruct (digit_neg d =? 0); [exact R|apply a_neg; exact R].
Qed.
Lemma cols_sim i js : (forall j, In j js -> (j < s_cols s)%nat) -> forall st st', rel (fst st) (fst st') ->
  rel (fst (fold_left (coord_cmb_col K fam c tab junk s rnaf i) js st)) (fst (fold_left (cmb_col C s rnaf i) js st')).
Proof.
  induction js as [|j js IH]; intros HJ st st' H; cbn [fold_left]; [exact H|].
  apply IH; [intros; apply HJ; right; assumption|]. apply col_sim; [apply HJ; left; reflexivity|exact H].
Qed.
Lemma rows_sim is : forall st st', rel (fst st) (fst st') ->
  rel (fst (fold_left (coord_cmb_row K fam c tab junk s rnaf) is st)) (fst (fold_left (cmb_row C s rnaf) is st')).
Proof.
  induction is as [|i is IH]; intros st st' H; cbn [fold_left]; [exact H|].
  apply IH. destruct st as [q l], st' as [Q L]. cbn [fst] in H. unfold coord_cmb_row, cmb_row.
  apply cols_sim; [intros j J; apply in_seq in J; lia|]. cbn [fst].
  destruct (i =? s_rows s - 1)%nat; [exact H|apply iter_sim; exact H].
Qed.
End Cmb.
Theorem cmb_sim scalar : bytes scalar -> length scalar = s_nb s ->
  rel (coord_cmb K fam c one tab junk s scalar) (fixed_smul_cmb C s scalar).
Proof.
  intros B L. unfold coord_cmb, fixed_smul_cmb.
  destruct (scalar_rwnaf_spec s scalar ok B L) as (LEN & FA & _ & _).
  set (rnaf := scalar_rwnaf s scalar) in *. clearbody rnaf.
  pose proof (rows_sim rnaf FA LEN (rev (seq 0 (s_rows s))) (inf_prj K fam one, zero_aff K) (pzero C, pzero C) r_inf) as T.
  destruct (fold_left (coord_cmb_row K fam c tab junk s rnaf) (rev (seq 0 (s_rows s))) (inf_prj K fam one, zero_aff K)) as [q l].
  destruct (fold_left (cmb_row C s rnaf) (rev (seq 0 (s_rows s))) (pzero C, pzero C)) as [Q L']. cbn [fst] in T.
  destruct (N.eqb _ 0); [|exact T]. apply r_mixed; [exact T|]. apply a_neg, r_table; [exact cols|lia].
Qed.

Definition two_rel (st : prj K * bool * bool) (st' : pt C * bool * bool) : Prop :=
  let '(q, i, f) := st in let '(Q, i', f') := st' in i = i' /\ f = f' /\ (i = false -> rel q Q).
Lemma two_add_sim {A} (tbl : nat -> A) (tbl' : nat -> pt C) load add st st' d :
  (forall k, (k < 16)%nat -> rel (load (tbl k)) (tbl' k)) ->
  (forall k q Q, (k < 16)%nat -> rel q Q -> rel (add q (tbl k)) (padd C Q (tbl' k))) ->
  wnaf_digit d -> two_rel st st' ->
  two_rel (coord_two_add K fam tbl load add st d) (two_add C tbl' st' d).
Proof.
  intros HL HA W H. destruct st as [[q i] f], st' as [[Q i'] f']. destruct H as (<- & <- & H).
  unfold coord_two_add, two_add. destruct (d =? 0) eqn:E.
  { split; [reflexivity|split; [reflexivity|exact H]]. }
  apply Z.eqb_neq in E. destruct W as [W|[O R]]; [contradiction|].
  set (idx := if d <? 0 then Z.shiftr (- d - 1) 1 else Z.shiftr (d - 1) 1).
  assert (I : 0 <= idx < 16).
  { unfold idx. destruct (d <? 0) eqn:D; [apply Z.ltb_lt in D|apply Z.ltb_ge in D]; apply shiftr1; lia. }
  assert (KI : (Z.to_nat idx < 16)%nat) by lia. set (k := Z.to_nat idx) in *. clearbody k.
  destruct (xorb (d <? 0) f).
  - destruct i.
    + split; [reflexivity|split; [reflexivity|intros _; apply HL; exact KI]].
    + split; [reflexivity|split; [reflexivity|intros _; apply HA; [exact KI|apply r_neg, H; reflexivity]]].
  - destruct i.
    + split; [reflexivity|split; [reflexivity|intros _; apply HL; exact KI]].
    + split; [reflexivity|split; [reflexivity|intros _; apply HA; [exact KI|apply H; reflexivity]]].
Qed.
Lemma two_turn_sim pre pre' st st' ab : (forall k, (k < 16)%nat -> rel (entry_at K junk pre k) (nth k pre' (pzero C))) ->
  wnaf_digit (fst ab) -> wnaf_digit (snd ab) -> two_rel st st' ->
  two_rel (coord_two_turn K fam c one tab junk pre st ab) (two_turn C pre' st' ab).
Proof.
  intros P WA WB H. destruct st as [[q i] f], st' as [[Q i'] f']. destruct H as (<- & <- & H).
  unfold coord_two_turn, two_turn. apply two_add_sim.
  - intros k Hk. apply r_load, r_table; [exact cols|exact Hk].
  - intros k q0 Q0 Hk R. apply r_mixed; [exact R|apply r_table; [exact cols|exact Hk]].
  - exact WA.
  - apply two_add_sim.
    + exact P.
    + intros k q0 Q0 Hk R. apply r_add; [exact R|apply P, Hk].
    + exact WB.
    + split; [reflexivity|split; [reflexivity|]]. intros ->. apply r_dbl, H. reflexivity.
Qed.
Lemma two_turns_sim pre pre' ds : (forall k, (k < 16)%nat -> rel (entry_at K junk pre k) (nth k pre' (pzero C))) ->
  Forall (fun ab => wnaf_digit (fst ab) /\ wnaf_digit (snd ab)) ds -> forall st st', two_rel st st' ->
  two_rel (fold_left (coord_two_turn K fam c one tab junk pre) ds st) (fold_left (two_turn C pre') ds st').
Proof.
  intros P. induction 1 as [|d ds [WA WB] _ IH]; intros st st' H; cbn [fold_left]; [exact H|].
  apply IH, two_turn_sim; assumption.
Qed.
Lemma Forall_combine {A B} (Q : A -> Prop) (R : B -> Prop) l : forall m, Forall Q l -> Forall R m ->
  Forall (fun ab => Q (fst ab) /\ R (snd ab)) (combine l m).
Proof.
  induction l as [|x l IH]; intros [|y m] HL HM; cbn; try constructor.
  - inversion HL; inversion HM; subst. split; assumption.
  - inversion HL; inversion HM; subst. apply IH; assumption.
Qed.
Theorem two_sim a b P0 P : bytes a -> length a = s_nb s -> bytes b -> length b = s_nb s ->
  rel (precomp_first K fam c one junk P0) P ->
  rel (coord_two K fam c one tab junk s a b P0) (var_smul_wnaf_two C s a b P).
Proof.
  intros BA LA BB LB H. pose proof (precomp_sim P0 P H) as PS. unfold coord_two, var_smul_wnaf_two.
  set (pre := coord_precomp K fam c one junk P0) in *. set (pre' := precomp_wnaf C P) in *. clearbody pre pre'.
  destruct (scalar_wnaf_spec s a ok BA LA) as (_ & WA & _). destruct (scalar_wnaf_spec s b ok BB LB) as (_ & WB & _).
  set (anaf := scalar_wnaf s a) in *. set (bnaf := scalar_wnaf s b) in *. clearbody anaf bnaf.
  assert (FD : Forall (fun ab => wnaf_digit (fst ab) /\ wnaf_digit (snd ab)) (rev (combine anaf bnaf)))
    by (apply Forall_rev, Forall_combine; assumption).
  set (ds := rev (combine anaf bnaf)) in *. clearbody ds.
  assert (I : two_rel (zero_prj K, true, false) (pzero C, true, false))
    by (split; [reflexivity|split; [reflexivity|discriminate]]).
  pose proof (two_turns_sim pre pre' ds PS FD _ _ I) as T.
  destruct (fold_left (coord_two_turn K fam c one tab junk pre) ds (zero_prj K, true, false)) as [[q i] f].
  destruct (fold_left (two_turn C pre') ds (pzero C, true, false)) as [[Q i'] f'].
  destruct T as (<- & <- & T).
  assert (R : rel (if i then inf_prj K fam one else q) (if i then pzero C else Q))
    by (destruct i; [exact r_inf|apply T; reflexivity]).
  destruct f; [apply r_neg, R|exact R].
Qed.
End Sim.
