(** Checking a table of multiples of a point with the help of witnesses (slopes, quotients, intermediate points), by
    integer polynomials (IntPoly.v), and why a table that passes is right.  Nothing here is part of the model. *)
From Coq Require Import ZArith Znumtheory List Bool Lia Uint63 Ring Field.
From Verif Require Import IntPoly EcFormulaSpec FieldZp EcConstModel EcConstProofs.
From Verif Require EcFormulaProofs.
Import ListNotations.
Local Open Scope Z_scope.

(** What the checks need to know of a field: p, a multiple of p whose coefficients are at least 2^26, and the
    Montgomery factor, to be multiplied by as so many zeros and a factor. *)
Record fdata := mk_fdata { pl : list int; kp : list int; rz : nat; rm : int }.
Definition fd_R (D : fdata) : Z := to_Z (rm D) * LB ^ Z.of_nat (rz D).
Definition fd_ok (D : fdata) (p R : Z) : bool :=
  (1 <? p) && (peval (pl D) =? p) && ((peval (kp D)) mod p =? 0) && (fd_R D =? R) && negb (R mod p =? 0) &&
  belowb 67108864 (pl D) && belowb 134217728 (kp D) && (rm D <? 4194305)%uint63.

Section Checks.
Variable D : fdata.
Definition small (l : list int) : bool := belowb 67108864 l.
Definition short (l : list int) : bool := (length l <=? 32)%nat.
(** a * b = c * R modulo p; the quotient comes with a sign. *)
Definition chk (a b c q : list int) : bool :=
  belowb 268435456 a && belowb 268435456 b && belowb 268435456 c && short a &&
  match q with
  | [] => false
  | s :: q0 =>
      let q1 := unp q0 in
      small q1 && short q1 &&
      let ab := pmul a b in
      let cr := repeat 0%uint63 (rz D) ++ pscale (rm D) c in
      let qp := pmul q1 (pl D) in
      if (s =? 0)%uint63 then peq ab (ladd cr qp) else peq (ladd ab qp) cr
  end.
Definition lsub (a b : list int) : list int := ladd a (psub (kp D) b).
Definition canon (l : list int) : bool := small l && match pcmp l (pl D) with Lt => true | _ => false end.
Definition differ (a b : list int) : bool := canon a && canon b && match pcmp a b with Eq => false | _ => true end.

(** Points of a Weierstrass curve *)
Definition ipt : Type := (list int * list int).
Definition wit : Type := list (list int).
Definition w_add_ok (P Q S : ipt) (w : wit) : bool :=
  let (x1, y1) := P in let (x2, y2) := Q in let (x3, y3) := S in
  match w with
  | [l0; q1; q2; q3] =>
      let l := unp l0 in
      small x1 && small y1 && small x2 && small y2 && small x3 && small y3 &&
      covers (kp D) x1 && covers (kp D) y1 && covers (kp D) x3 && differ x1 x2 &&
      chk l (lsub x2 x1) (lsub y2 y1) q1 && chk l l (ladd x1 (ladd x2 x3)) q2 && chk l (lsub x1 x3) (ladd y1 y3) q3
  | _ => false
  end.
Definition w_dbl_ok (a : list int) (P S : ipt) (w : wit) : bool :=
  let (x1, y1) := P in let (x3, y3) := S in
  match w with
  | [l0; s0; q1; q2; q3; q4] =>
      let l := unp l0 in let s := unp s0 in
      small x1 && small y1 && small x3 && small y3 && small s && small a && covers (kp D) x3 && differ y1 [] &&
      chk x1 x1 s q1 && chk l (ladd y1 y1) (ladd (ladd s s) (ladd s a)) q2 && chk l l (ladd x1 (ladd x1 x3)) q3 &&
      chk l (lsub x1 x3) (ladd y1 y3) q4
  | _ => false
  end.
(** Points of an Edwards curve, with the product of the coordinates; d times that product for the second point *)
Definition ept : Type := (list int * list int * list int).
Definition e_add_ok (d one : list int) (P Q S : ept) (w : wit) : bool :=
  let '(x1, y1, t1) := P in let '(x2, y2, t2) := Q in let '(x3, y3, t3) := S in
  match w with
  | [u0; w0; m1; m2; m3; m4; q1; q2; q3; q4; q5; q6; q7; q8; q9] =>
      let u := unp u0 in let w := unp w0 in let a := unp m1 in let b := unp m2 in let c := unp m3 in let e := unp m4 in
      small one && small w && small a && small b && small c && small e && covers (kp D) w && covers (kp D) e &&
      chk d t2 u q1 && chk t1 u w q2 && chk x1 y2 a q3 && chk x2 y1 b q4 && chk y1 y2 c q5 && chk x1 x2 e q6 &&
      chk x3 (ladd one w) (ladd a b) q7 && chk y3 (lsub one w) (lsub c e) q8 && chk x3 y3 t3 q9
  | _ => false
  end.

(** Soundness *)
Variable p : Z.
Hypothesis Pp : prime p.
Notation K := (zp p Pp).
Variable R : Z.
Hypothesis OK : fd_ok D p R = true.
Add Field KF7 : (f_theory (zp p Pp)).

Ltac bands H := repeat match type of H with (_ && _)%bool = true => let H' := fresh "B" in apply andb_true_iff in H; destruct H as [H H'] end.
Lemma fd_props : 1 < p /\ peval (pl D) = p /\ peval (kp D) mod p = 0 /\ fd_R D = R /\ R mod p <> 0 /\
  below (2 ^ 26) (pl D) /\ below (2 ^ 27) (kp D) /\ to_Z (rm D) < 2 ^ 22 + 1.
Proof using OK.
  pose proof OK as O. unfold fd_ok in O. bands O.
  apply Z.ltb_lt in O. apply negb_true_iff, Z.eqb_neq in B2.
  repeat match goal with H : (_ =? _)%Z = true |- _ => apply Z.eqb_eq in H end.
  repeat match goal with H : belowb _ _ = true |- _ => apply belowb_ok in H end.
  apply ltb_spec in B. repeat split; assumption.
Qed.
Definition elt (l : list int) : F K := fdiv K (res p (peval l)) (res p R).
Lemma R_ne : res p R <> f0 K.
Proof using OK.
  destruct fd_props as (P1 & _ & _ & _ & NR & _). intros H. apply NR. apply (f_equal (val p)) in H.
  cbn [val res f0 zp] in H. rewrite H. apply Z.mod_0_l. lia.
Qed.
Lemma res_p : res p p = f0 K.
Proof. apply residue_eq. cbn [val res f0 zp]. rewrite Z_mod_same_full. symmetry. apply Zmod_0_l. Qed.
Lemma elt_add a b : below (2 ^ 62) a -> below (2 ^ 62) b -> elt (ladd a b) = fadd K (elt a) (elt b).
Proof using OK.
  intros A B. destruct (ladd_ok a b _ _ A B) as [E _]; [lia|lia|lia|]. unfold elt. rewrite E, <- (r_add p Pp).
  pose proof R_ne. generalize (res p (peval a)) (res p (peval b)). intros u v.
  enough (forall x y z : F K, z <> f0 K -> fdiv K (fadd K x y) z = fadd K (fdiv K x z) (fdiv K y z)) as G by (apply G; assumption).
  intros x y z NZ. field. exact NZ.
Qed.

Lemma elt_sub a b : small a = true -> covers (kp D) b = true -> elt (lsub a b) = fsub K (elt a) (elt b).
Proof using OK.
  intros A C. apply belowb_ok in A. change (to_Z 67108864%uint63) with (2 ^ 26) in A.
  destruct fd_props as (P1 & EP & EK & _ & NR & _ & BK & _).
  destruct (psub_ok (kp D) b _ BK C) as [E1 B1]. unfold lsub.
  rewrite elt_add; [|eapply below_le; [exact A|lia]|eapply below_le; [exact B1|lia]].
  unfold elt. rewrite E1.
  assert (Z0 : res p (peval (kp D) - peval b) = fopp K (res p (peval b))).
  { rewrite (r_opp p Pp). apply residue_eq. cbn [val res]. rewrite Zminus_mod, EK, Zminus_mod_idemp_r, Z.sub_0_l. reflexivity. }
  rewrite Z0. pose proof R_ne.
  enough (G : forall x y z : F K, z <> f0 K -> fadd K (fdiv K x z) (fdiv K (fopp K y) z) = fsub K (fdiv K x z) (fdiv K y z)) by (apply G; assumption).
  intros x y z NZ. field. exact NZ.
Qed.
Lemma elt_mul a b c q : chk a b c q = true -> fmul K (elt a) (elt b) = elt c.
Proof using OK.
  unfold chk. intros H. bands H. destruct q as [|s q0]; [discriminate|]. set (q1 := unp q0) in *. clearbody q1.
  cbv zeta in B. bands B.
  apply belowb_ok in H, B1, B2, B. apply Nat.leb_le in B0, B4.
  change (to_Z 268435456%uint63) with (2 ^ 28) in *. change (to_Z 67108864%uint63) with (2 ^ 26) in *.
  destruct fd_props as (P1 & EP & EK & ER & NR & BP & BK & BM).
  destruct (pmul_ok a b _ _ H B2) as [E1 F1]; [lia|lia|lia|].
  destruct (pmul_ok q1 (pl D) _ _ B BP) as [E2 F2]; [lia|lia|lia|].
  destruct (pscale_ok (rm D) c _ _ BM B1) as [E3 F3]; [lia|lia|lia|].
  assert (F1' : below (2 ^ 61 + 64) (pmul a b)) by (eapply below_le; [exact F1|lia]).
  assert (F2' : below (2 ^ 58) (pmul q1 (pl D))) by (eapply below_le; [exact F2|lia]).
  assert (F3' : below (2 ^ 52) (repeat 0%uint63 (rz D) ++ pscale (rm D) c)) by (apply below_zeros; [lia|eapply below_le; [exact F3|lia]]).
  assert (E4 : peval (repeat 0%uint63 (rz D) ++ pscale (rm D) c) = R * peval c).
  { rewrite peval_zeros, E3. rewrite <- ER. unfold fd_R. ring. }
  assert (M : (peval a * peval b) mod p = (R * peval c) mod p).
  { destruct (s =? 0)%uint63.
    - destruct (ladd_ok _ _ _ _ F3' F2') as [E5 F5]; [lia|lia|lia|].
      apply (peq_ok _ _ (2 ^ 62)) in B3; [|eapply below_le; [exact F1'|lia]|eapply below_le; [exact F5|lia]|lia].
      rewrite E5, E1, E2, E4, EP in B3. rewrite B3. apply Z_mod_plus_full.
    - destruct (ladd_ok _ _ _ _ F1' F2') as [E5 F5]; [lia|lia|lia|].
      apply (peq_ok _ _ (2 ^ 62)) in B3; [|eapply below_le; [exact F5|lia]|eapply below_le; [exact F3'|lia]|lia].
      rewrite E5, E1, E2, E4, EP in B3. rewrite <- B3. symmetry. apply Z_mod_plus_full. }
  assert (G : fmul K (res p (peval a)) (res p (peval b)) = fmul K (res p R) (res p (peval c))).
  { rewrite !(r_mul p Pp). apply residue_eq. cbn [val res]. exact M. }
  unfold elt. pose proof R_ne as NZ.
  enough (GG : forall x y z r : F K, r <> f0 K -> fmul K x y = fmul K r z -> fmul K (fdiv K x r) (fdiv K y r) = fdiv K z r) by (apply GG; assumption).
  intros x y z r Nr Exy. transitivity (fdiv K (fmul K x y) (fmul K r r)); [field; exact Nr|]. rewrite Exy. field. exact Nr.
Qed.
Lemma canon_ok l : canon l = true -> below LB l /\ peval l < p.
Proof using OK.
  unfold canon, small. intros H. bands H. apply belowb_ok in H. change (to_Z 67108864%uint63) with LB in H.
  destruct fd_props as (_ & EP & _ & _ & _ & BP & _). split; [exact H|].
  pose proof (pcmp_ok l (pl D) H BP) as C. destruct (pcmp l (pl D)); try discriminate. rewrite EP in C. apply Z.compare_lt_iff, C.
Qed.
Lemma differ_ok a b : differ a b = true -> elt a <> elt b.
Proof using OK.
  unfold differ. intros H. bands H. apply canon_ok in H, B0. destruct H as [A LA], B0 as [Bb LB'].
  pose proof (pcmp_ok a b A Bb) as C. assert (NE : peval a <> peval b).
  { intros E. rewrite E, Z.compare_refl in C. rewrite <- C in B. discriminate. }
  intros E. apply NE. pose proof R_ne as NZ. pose proof (peval_pos a). pose proof (peval_pos b).
  assert (E2 : res p (peval a) = res p (peval b)).
  { unfold elt in E. revert E NZ. enough (G : forall x y z : F K, fdiv K x z = fdiv K y z -> z <> f0 K -> x = y) by (apply G).
    intros x y z Q Nz. transitivity (fmul K (fdiv K x z) z); [field; exact Nz|]. rewrite Q. field. exact Nz. }
  apply (f_equal (val p)) in E2. cbn [val res] in E2. rewrite !Z.mod_small in E2 by lia. exact E2.
Qed.
Lemma elt_nil : elt [] = f0 K.
Proof using OK.
  unfold elt. cbn [peval]. change (res p 0) with (f0 K). pose proof R_ne as NZ.
  enough (G : forall z : F K, z <> f0 K -> fdiv K (f0 K) z = f0 K) by (apply G, NZ). intros z Nz. field. exact Nz.
Qed.
Lemma small_below l : small l = true -> below (2 ^ 26) l.
Proof. intros H. apply belowb_ok in H. exact H. Qed.
Lemma add_small a b : small a = true -> small b = true -> elt (ladd a b) = fadd K (elt a) (elt b).
Proof using OK.
  intros A B. apply small_below in A, B. apply elt_add; eapply below_le; try eassumption; lia.
Qed.
Lemma add_small3 a b c : small a = true -> small b = true -> small c = true ->
  elt (ladd a (ladd b c)) = fadd K (elt a) (fadd K (elt b) (elt c)).
Proof using OK.
  intros A B C. rewrite <- (add_small b c B C). apply small_below in A, B, C.
  destruct (ladd_ok b c _ _ B C) as [_ F]; [lia|lia|lia|]. apply elt_add; eapply below_le; try eassumption; lia.
Qed.

Definition ifin (P : ipt) : wpoint K := Finite (elt (fst P)) (elt (snd P)).
Lemma w_add_sound a P Q S w : w_add_ok P Q S w = true -> w_add K a (ifin P) (ifin Q) = ifin S.
Proof using OK.
  destruct P as [x1 y1], Q as [x2 y2], S as [x3 y3]. unfold w_add_ok.
  destruct w as [|l0 [|q1 [|q2 [|q3 [|? ?]]]]]; try discriminate. set (l := unp l0). clearbody l. cbv zeta. intros H. bands H.
  apply elt_mul in B, B0, B1. apply differ_ok in B2.
  rewrite elt_sub, add_small in B by assumption. rewrite add_small3 in B0 by assumption. rewrite !elt_sub in B1 by assumption.
  unfold ifin. cbn [fst snd w_add].
  destruct (feqb K (elt x1) (elt x2)) eqn:E; [apply f_eqb in E; contradiction|].
  revert B B0 B1 B2. generalize (elt x1) (elt x2) (elt x3) (elt y1) (elt y2) (elt y3) (elt l).
  enough (G : forall u1 u2 u3 v1 v2 v3 m : F K, fmul K m (fsub K u1 u3) = fadd K v1 v3 -> fmul K m m = fadd K u1 (fadd K u2 u3) ->
     fmul K m (fsub K u2 u1) = fsub K v2 v1 -> u1 <> u2 ->
     w_third K (fdiv K (fsub K v1 v2) (fsub K u1 u2)) u1 v1 u2 = Finite u3 v3) by (apply G).
  intros u1 u2 u3 v1 v2 v3 m C1 C2 C3 NE.
  assert (N : fsub K u1 u2 <> f0 K).
  { intros Z. apply NE. transitivity (fadd K (fsub K u1 u2) u2); [ring|]. rewrite Z. ring. }
  assert (L : fdiv K (fsub K v1 v2) (fsub K u1 u2) = m).
  { transitivity (fdiv K (fopp K (fsub K v2 v1)) (fsub K u1 u2)); [field; exact N|]. rewrite <- C3. field. exact N. }
  rewrite L. unfold w_third. assert (X3 : fsub K (fsub K (fmul K m m) u1) u2 = u3) by (rewrite C2; ring).
  rewrite X3. f_equal. rewrite C1. ring.
Qed.

Lemma w_dbl_sound a P S w : fadd K (f1 K) (f1 K) <> f0 K -> w_dbl_ok a P S w = true -> w_add K (elt a) (ifin P) (ifin P) = ifin S.
Proof using OK.
  intros TWO. destruct P as [x1 y1], S as [x3 y3]. unfold w_dbl_ok.
  destruct w as [|l0 [|s0 [|q1 [|q2 [|q3 [|q4 [|? ?]]]]]]]; try discriminate.
  set (l := unp l0). set (s := unp s0). clearbody l s. cbv zeta. intros H. bands H.
  apply elt_mul in B, B0, B1, B2. apply differ_ok in B3. rewrite elt_nil in B3.
  rewrite elt_sub, add_small in B by assumption. rewrite add_small3 in B0 by assumption. rewrite add_small in B1 by assumption.
  assert (E3 : elt (ladd (ladd s s) (ladd s a)) = fadd K (fadd K (elt s) (elt s)) (fadd K (elt s) (elt a))).
  { rewrite <- !add_small by assumption.
    pose proof (small_below s B6) as Bs. pose proof (small_below a B5) as Ba.
    destruct (ladd_ok s s _ _ Bs Bs) as [_ F1]; [lia|lia|lia|]. destruct (ladd_ok s a _ _ Bs Ba) as [_ F2]; [lia|lia|lia|].
    apply elt_add; eapply below_le; try eassumption; lia. }
  rewrite E3 in B1. clear E3. rewrite <- B2 in B1. clear B2.
  unfold ifin. cbn [fst snd w_add].
  revert B B0 B1 B3. generalize (elt x1) (elt x3) (elt y1) (elt y3) (elt l) (elt a).
  enough (G : forall u1 u3 v1 v3 m a : F K, fmul K m (fsub K u1 u3) = fadd K v1 v3 -> fmul K m m = fadd K u1 (fadd K u1 u3) ->
     fmul K m (fadd K v1 v1) = fadd K (fadd K (fmul K u1 u1) (fmul K u1 u1)) (fadd K (fmul K u1 u1) a) -> v1 <> f0 K ->
     (if feqb K u1 u1 then if feqb K v1 (fopp K v1) then Infinity
        else w_third K (fdiv K (fadd K (fmul K (fadd K (fadd K (f1 K) (f1 K)) (f1 K)) (fmul K u1 u1)) a) (fmul K (fadd K (f1 K) (f1 K)) v1)) u1 v1 u1
      else w_third K (fdiv K (fsub K v1 v1) (fsub K u1 u1)) u1 v1 u1) = Finite u3 v3) by (apply G).
  intros u1 u3 v1 v3 m a' C1 C2 C3 NE.
  assert (E1 : feqb K u1 u1 = true) by (apply f_eqb; reflexivity). rewrite E1.
  assert (N2 : fmul K (fadd K (f1 K) (f1 K)) v1 <> f0 K).
  { intros Z. apply NE. transitivity (fdiv K (fmul K (fadd K (f1 K) (f1 K)) v1) (fadd K (f1 K) (f1 K))); [field; exact TWO|]. rewrite Z. field. exact TWO. }
  destruct (feqb K v1 (fopp K v1)) eqn:E2.
  { exfalso. apply f_eqb in E2. apply N2. transitivity (fadd K v1 v1); [ring|]. rewrite E2 at 2. ring. }
  assert (L : fdiv K (fadd K (fmul K (fadd K (fadd K (f1 K) (f1 K)) (f1 K)) (fmul K u1 u1)) a') (fmul K (fadd K (f1 K) (f1 K)) v1) = m).
  { transitivity (fdiv K (fadd K (fadd K (fmul K u1 u1) (fmul K u1 u1)) (fadd K (fmul K u1 u1) a')) (fmul K (fadd K (f1 K) (f1 K)) v1)).
    - field. split; assumption.
    - rewrite <- C3. field. split; assumption. }
  rewrite L. unfold w_third. assert (X3 : fsub K (fsub K (fmul K m m) u1) u1 = u3) by (rewrite C2; ring).
  rewrite X3. f_equal. rewrite C1. ring.
Qed.

Definition eaff (P : ept) : F K * F K := (elt (fst (fst P)), elt (snd (fst P))).
Definition e_prod (P : ept) : Prop := elt (snd P) = fmul K (elt (fst (fst P))) (elt (snd (fst P))).
Lemma e_add_sound d one P Q S w : fadd K (f1 K) (f1 K) <> f0 K -> elt one = f1 K -> nonsquare K (elt d) ->
  e_on K (elt d) (eaff P) -> e_on K (elt d) (eaff Q) -> e_prod P -> e_prod Q ->
  e_add_ok d one P Q S w = true -> e_add K (elt d) (eaff P) (eaff Q) = eaff S /\ e_prod S.
Proof using OK.
  intros TWO ONE NS. destruct P as [[x1 y1] t1], Q as [[x2 y2] t2], S as [[x3 y3] t3]. unfold e_add_ok, eaff, e_prod. cbn [fst snd].
  intros OP OQ TP TQ.
  destruct w as [|u0 [|w0 [|m1 [|m2 [|m3 [|m4 [|q1 [|q2 [|q3 [|q4 [|q5 [|q6 [|q7 [|q8 [|q9 [|? ?]]]]]]]]]]]]]]]]; try discriminate.
  set (u := unp u0). set (w := unp w0). set (a := unp m1). set (b := unp m2). set (c := unp m3). set (e := unp m4). clearbody u w a b c e.
  cbv zeta. intros H. bands H. apply elt_mul in B, B0, B1, B2, B3, B4, B5, B6, B7.
  rewrite add_small, (add_small a b) in B1 by assumption. rewrite !elt_sub in B0 by assumption.
  split; [|symmetry; exact B].
  rewrite ONE in B0, B1. rewrite <- B2, <- B3, <- B6 in *. rewrite <- B4, <- B5 in B1. rewrite <- B7, TP, TQ in B0, B1.
  clear B2 B3 B4 B5 B6 B7 B H TP TQ ONE. revert B1 B0 OP OQ NS.
  generalize (elt d) (elt x1) (elt x2) (elt x3) (elt y1) (elt y2) (elt y3).
  enough (G : forall dd u1 u2 u3 v1 v2 v3 : F K,
    fmul K u3 (fadd K (f1 K) (fmul K (fmul K u1 v1) (fmul K dd (fmul K u2 v2)))) = fadd K (fmul K u1 v2) (fmul K u2 v1) ->
    fmul K v3 (fsub K (f1 K) (fmul K (fmul K u1 v1) (fmul K dd (fmul K u2 v2)))) = fsub K (fmul K v1 v2) (fmul K u1 u2) ->
    e_on K dd (u1, v1) -> e_on K dd (u2, v2) -> nonsquare K dd -> e_add K dd (u1, v1) (u2, v2) = (u3, v3)) by (apply G).
  intros dd u1 u2 u3 v1 v2 v3 E1 E2 O1 O2 NS.
  pose proof (EcFormulaProofs.e_plus K dd NS TWO u1 v1 u2 v2 O1 O2) as NP. pose proof (EcFormulaProofs.e_minus K dd NS TWO u1 v1 u2 v2 O1 O2) as NM.
  cbn [e_add]. rewrite <- E1, <- E2. f_equal; field; [exact NP|exact NM].
Qed.
End Checks.

(** ** A table of odd multiples, column by column *)
Section Columns.
Variables P W : Type.
Variable add_ok : P -> P -> P -> W -> bool.      (* sum, a witness *)
Variable dbl_ok : P -> P -> W -> bool.
Variable good : Z -> P -> Prop.
Hypothesis add_good : forall n m A B S w, good n A -> good m B -> add_ok A B S w = true -> good (n + m) S.
Hypothesis dbl_good : forall n A S w, good n A -> dbl_ok A S w = true -> good (2 * n) S.

Fixpoint adds (E D : P) (rest : list P) (ws : list W) : bool :=
  match rest, ws with
  | [], _ => true
  | E' :: rest', w :: ws' => add_ok E D E' w && adds E' D rest' ws'
  | _, _ => false
  end.
Fixpoint chain (A : P) (l : list (P * W)) (w : W) (last : P) : bool :=
  match l with
  | [] => dbl_ok A last w
  | (A', w') :: l' => dbl_ok A A' w' && chain A' l' w last
  end.
(** The double of the column's first entry, the sums; 32 times the first entry, then doublings up to the next
    column's first entry *)
Record colwit := mk_colwit { cw_two : P; cw_dw : W; cw_adds : list W; cw_32 : P; cw_32w : W; cw_chain : list (P * W); cw_last : W }.
Definition col (c : list P) (w : colwit) : bool :=
  match c with
  | [] => false
  | E0 :: rest => dbl_ok E0 (cw_two w) (cw_dw w) && adds E0 (cw_two w) rest (cw_adds w)
  end.
Definition next (r : nat) (c : list P) (w : colwit) (E1 : P) : bool :=
  match c, nth_error c 15 with
  | E0 :: _, Some E15 => add_ok E15 E0 (cw_32 w) (cw_32w w) && (length (cw_chain w) =? 5 * r - 6)%nat && chain (cw_32 w) (cw_chain w) (cw_last w) E1
  | _, _ => false
  end.
Fixpoint cols (r : nat) (cs : list (list P)) (ws : list colwit) : bool :=
  match cs, ws with
  | [], _ => true
  | c :: cs', w :: ws' =>
      col c w &&
      match cs' with
      | [] => true
      | (E1 :: _) :: _ => next r c w E1
      | _ => false
      end && cols r cs' ws'
  | _, _ => false
  end.

Lemma adds_good n m D : good m D -> forall rest E ws, good n E -> adds E D rest ws = true ->
  forall k A, nth_error (E :: rest) k = Some A -> good (n + m * Z.of_nat k) A.
Proof using add_good.
  intros GD rest. revert n. induction rest as [|E' rest IH]; intros n E ws GE H k A N.
  - destruct k as [|[|k]]; cbn in N; try discriminate. injection N as <-. replace (n + m * Z.of_nat 0) with n by (change (Z.of_nat 0) with 0; ring). exact GE.
  - destruct ws as [|w ws]; [discriminate|]. cbn [adds] in H. apply andb_true_iff in H. destruct H as [H1 H2].
    destruct k as [|k]; cbn [nth_error] in N.
    + injection N as <-. replace (n + m * Z.of_nat 0) with n by (change (Z.of_nat 0) with 0; ring). exact GE.
    + pose proof (add_good n m E D E' w GE GD H1) as G'. rewrite Nat2Z.inj_succ.
      replace (n + m * Z.succ (Z.of_nat k)) with ((n + m) + m * Z.of_nat k) by ring. exact (IH (n + m) E' ws G' H2 k A N).
Qed.
Lemma chain_good l : forall n A w last, good n A -> chain A l w last = true -> good (n * 2 ^ (Z.of_nat (length l) + 1)) last.
Proof using dbl_good.
  induction l as [|[A' w'] l IH]; intros n A w last G H; cbn [chain length] in *.
  - change (2 ^ (Z.of_nat 0 + 1)) with 2. rewrite Z.mul_comm. eapply dbl_good; eassumption.
  - apply andb_true_iff in H. destruct H as [H1 H2].
    replace (n * 2 ^ (Z.of_nat (S (length l)) + 1)) with ((2 * n) * 2 ^ (Z.of_nat (length l) + 1)).
    + eapply IH; [|exact H2]. eapply dbl_good; eassumption.
    + rewrite Nat2Z.inj_succ. replace (Z.succ (Z.of_nat (length l)) + 1) with (Z.succ (Z.of_nat (length l) + 1)) by ring.
      rewrite Z.pow_succ_r by lia. ring.
Qed.
Lemma col_good n c w : col c w = true -> (forall E0 t, c = E0 :: t -> good n E0) ->
  forall k A, nth_error c k = Some A -> good ((2 * Z.of_nat k + 1) * n) A.
Proof using add_good dbl_good.
  intros H G k A N. destruct c as [|E0 rest]; [discriminate|]. cbn [col] in H. apply andb_true_iff in H. destruct H as [H1 H2].
  specialize (G E0 rest eq_refl). pose proof (dbl_good n E0 _ _ G H1) as G2.
  replace ((2 * Z.of_nat k + 1) * n) with (n + (2 * n) * Z.of_nat k) by ring. eapply adds_good; eassumption.
Qed.
Lemma next_good r n c w E1 : (2 <= r)%nat -> col c w = true -> (forall E0 t, c = E0 :: t -> good n E0) ->
  next r c w E1 = true -> good (n * 2 ^ (5 * Z.of_nat r)) E1.
Proof using add_good dbl_good.
  intros R H G N. pose proof (col_good n c w H G 15) as G15. unfold next in N. destruct c as [|E0 rest]; [discriminate|].
  destruct (nth_error (E0 :: rest) 15) as [E15|]; [|discriminate]. specialize (G15 E15 eq_refl). specialize (G E0 rest eq_refl).
  apply andb_true_iff in N. destruct N as [N N3]. apply andb_true_iff in N. destruct N as [N1 N2]. apply Nat.eqb_eq in N2.
  pose proof (add_good _ _ _ _ _ _ G15 G N1) as G32. pose proof (chain_good _ _ _ _ _ G32 N3) as GL.
  replace (n * 2 ^ (5 * Z.of_nat r)) with (((2 * Z.of_nat 15 + 1) * n + n) * 2 ^ (Z.of_nat (length (cw_chain w)) + 1)); [exact GL|].
  rewrite N2. replace (Z.of_nat (5 * r - 6) + 1) with (5 * Z.of_nat r - 5) by lia.
  replace (5 * Z.of_nat r) with (5 + (5 * Z.of_nat r - 5)) at 2 by lia. rewrite Z.pow_add_r by lia. change (2 ^ 5) with 32. change (Z.of_nat 15) with 15. ring.
Qed.
Theorem cols_good r : (2 <= r)%nat -> forall cs ws n, cols r cs ws = true -> (forall E0 t cs', cs = (E0 :: t) :: cs' -> good n E0) ->
  forall j c k A, nth_error cs j = Some c -> nth_error c k = Some A ->
  good ((2 * Z.of_nat k + 1) * (n * 2 ^ (5 * Z.of_nat r * Z.of_nat j))) A.
Proof using add_good dbl_good.
  intros R cs. induction cs as [|c0 cs IH]; intros ws n H G j c k A Nj Nk; [destruct j; discriminate|].
  destruct ws as [|w ws]; [discriminate|]. cbn [cols] in H. apply andb_true_iff in H. destruct H as [H H3].
  apply andb_true_iff in H. destruct H as [H1 H2].
  assert (G0 : forall E0 t, c0 = E0 :: t -> good n E0) by (intros E0 t ->; eapply G; reflexivity).
  destruct j as [|j]; cbn [nth_error] in Nj.
  - injection Nj as <-. replace (n * 2 ^ (5 * Z.of_nat r * Z.of_nat 0)) with n by (rewrite Z.mul_0_r; ring).
    exact (col_good n c0 w H1 G0 k A Nk).
  - replace (n * 2 ^ (5 * Z.of_nat r * Z.of_nat (S j))) with ((n * 2 ^ (5 * Z.of_nat r)) * 2 ^ (5 * Z.of_nat r * Z.of_nat j)).
    + eapply IH; [exact H3| |exact Nj|exact Nk]. intros E1 t cs' ->. eapply next_good; eassumption.
    + rewrite <- Z.mul_assoc, <- Z.pow_add_r by lia. do 2 f_equal. lia.
Qed.
End Columns.
Arguments mk_colwit {P W}.
Definition unp2 (x y : list int) : ipt := (unp x, unp y).
Definition unp3 (x y t : list int) : ept := (unp x, unp y, unp t).
