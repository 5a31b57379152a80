(** Property C62: operations with a private key run in secret-independent time and space. *)
From Coq Require Import String List ZArith Bool Lia.
From Verif Require Import Bytes EcLadderModel LeakModel LeakProofs.
Import ListNotations.
Local Open Scope list_scope.
Local Open Scope Z_scope.

Notation trace C p st := (fst (exec C p st)) (only parsing).

(** Labels: the scalar, its digits and what is computed from them are secret; the loop variables and the index of a bit are not. *)
Local Open Scope string_scope.
Definition one_labels : labels :=
  mk_labels (fun x => existsb (String.eqb x) ["window"; "d8"; "bit"; "d"; "is_neg"; "diff"]) (fun a => existsb (String.eqb a) ["scalar"; "rnaf"]).
Local Close Scope string_scope.
Lemma low_one C D a b P Q : low C D one_labels (one_store C a P) (one_store D b Q).
Proof.
  split; [reflexivity|]. intros x Hx i. unfold one_store, set_pt, with_cmb, with_arr, store0. cbn [arrs].
  destruct (String.eqb_spec x "scalar"%string) as [->|]; [discriminate Hx|reflexivity].
Qed.
(** Multiplying a point by a secret scalar (the private key in VKO) and multiplying the generator (key generation, the
    ephemeral number of a signature): the trace is the same for all scalars, all points and all contents of the precomputed table; it depends
    on the constants of the file only. *)
Theorem C62_scalar_multiplication_leaks_nothing :
  forall s, exists tv tf, forall C scalar P,
    trace C (var_smul_rwnaf_prog s) (one_store C scalar P) = tv /\ trace C (fixed_smul_cmb_prog s) (one_store C scalar P) = tf.
Proof.
  intros s. set (Z_ := mk_group Z Z.add Z.opp 0 (fun _ => None) 1 2 1 1%nat OtherNid true (fun _ _ => 0)).
  exists (trace Z_ (var_smul_rwnaf_prog s) (one_store Z_ [] 0)), (trace Z_ (fixed_smul_cmb_prog s) (one_store Z_ [] 0)).
  intros C a P. split; (eapply check_sound; [|apply low_one]).
  - unfold var_smul_rwnaf_prog. destruct (s_ed s); reflexivity.
  - reflexivity.
Qed.
Print Assumptions C62_scalar_multiplication_leaks_nothing.

(** The general principle: any program that the checker accepts leaks nothing of what is labelled secret. *)
Theorem C62_checked_programs_leak_nothing :
  forall C D G p s t, ok G p = true -> low C D G s t -> trace C p s = trace D p t /\ low C D G (snd (exec C p s)) (snd (exec D p t)).
Proof. intros C D G p s t. exact (check_sound C D G p s t). Qed.
Print Assumptions C62_checked_programs_leak_nothing.

(** * The double multiplication (signature verification) does leak: the parity of the first scalar is visible. *)
Lemma for_head C x lo hi p st : snd (eval C st lo) < snd (eval C st hi) -> exists r,
  fst (exec C (For x lo hi p) st) = fst (eval C st lo) ++ fst (eval C st hi) ++ Branch true :: fst (exec C p (set_var C st x (snd (eval C st lo)))) ++ r.
Proof. intros H. rewrite (proj1 (exec_for _ _ _ _ _ _)), zrange_cons by exact H. cbn [turns]. cbv zeta. cbn [fst]. eexists. reflexivity. Qed.
Lemma if_head C x n c p q rest st : exists r,
  fst (exec C (Seq (Set_ x (Num n)) (Seq (If c p q) rest)) st) =
  fst (eval C (set_var C st x n) c) ++ Branch (negb (snd (eval C (set_var C st x n) c) =? 0)) :: r.
Proof.
  rewrite (proj1 (exec_seq _ _ _ _)), (proj1 (exec_seq _ _ _ _)). cbn [exec eval fst snd app]. destruct (eval C (set_var C st x n) c) as [t v]. cbn [fst snd].
  destruct (if v =? 0 then _ else _) as [t2 u]. cbn [fst]. eexists. rewrite <- app_assoc. cbn [app]. reflexivity.
Qed.
Lemma parity w0 : Z.land (Z.land w0 63) 1 =? 0 = negb (Z.odd w0).
Proof. rewrite <- Z.land_assoc. change (Z.land 63 1) with (Z.ones 1). rewrite Z.land_ones by lia. change (2 ^ 1) with 2. rewrite Zmod_odd. destruct (Z.odd w0); reflexivity. Qed.
Lemma scalar_wnaf_trace C s out inp st : exists r,
  fst (exec C (scalar_wnaf_prog s out inp) st) = Reads inp 0 :: Branch true :: Branch (Z.odd (arrs st inp 0)) :: r.
Proof.
  unfold scalar_wnaf_prog. rewrite (proj1 (exec_seq _ _ _ _)).
  match goal with |- context [exec C (For _ _ _ (Seq _ (Seq (If _ ?p _) ?rest)))] => generalize rest; intros re; generalize p; intros pp end.
  cbn [exec eval fst snd app bin]. set (st1 := set_var C st "window" (Z.land (arrs st inp 0) 63)).
  destruct (for_head C "i" (Num 0) (Num (8 * Z.of_nat (s_nb s) + 1)) (Seq (Set_ "d8" (Num 0)) (Seq (If (Bin And (Var "window") (Num 1)) pp Skip) re)) st1) as [r1 E1].
  { cbn [eval snd]. lia. }
  destruct (if_head C "d8" 0 (Bin And (Var "window") (Num 1)) pp Skip re (set_var C st1 "i" 0)) as [r2 E2].
  refine (ex_intro _ (r2 ++ r1) _). refine (f_equal (cons (Reads inp 0)) (eq_trans E1 _)). cbn [eval fst snd app]. f_equal. rewrite E2. cbn [eval fst snd app bin].
  assert (W : vars (set_var C (set_var C st1 "i" 0) "d8" 0) "window"%string = Z.land (arrs st inp 0) 63) by reflexivity. rewrite W, parity, negb_involutive. reflexivity.
Qed.
Lemma four C p1 p2 p3 p4 rest st : let pre := Seq p1 (Seq p2 p3) in
  fst (exec C (Seq p1 (Seq p2 (Seq p3 (Seq p4 rest)))) st) =
  fst (exec C pre st) ++ fst (exec C p4 (snd (exec C pre st))) ++ fst (exec C rest (snd (exec C p4 (snd (exec C pre st))))).
Proof. cbv zeta. rewrite !(proj1 (exec_seq _ _ _ _)), !(proj2 (exec_seq _ _ _ _)). rewrite !app_assoc. reflexivity. Qed.
Lemma leak_at C p1 p2 p3 w rest st st' : fst (exec C (Seq p1 (Seq p2 p3)) st) = fst (exec C (Seq p1 (Seq p2 p3)) st') ->
  fst (exec C (Seq p1 (Seq p2 (Seq p3 (Seq w rest)))) st) = fst (exec C (Seq p1 (Seq p2 (Seq p3 (Seq w rest)))) st') ->
  exists r r', fst (exec C w (snd (exec C (Seq p1 (Seq p2 p3)) st))) ++ r = fst (exec C w (snd (exec C (Seq p1 (Seq p2 p3)) st'))) ++ r'.
Proof. intros T E. rewrite !four in E. cbv zeta in E. rewrite T in E. apply app_inv_head in E. eexists. eexists. exact E. Qed.
Definition two_head : stmt := Seq (Set_ "is_inf" (Num 1)) (Seq (Set_ "flipped" (Num 0)) precomp_wnaf_prog).
Lemma padd_turns C l : forall st, arrs (snd (turns C "i" (PAdd (precomp_ (Var "i")) (precomp_ (Num 15)) (precomp_ (Bin Sub (Var "i") (Num 1)))) l st)) = arrs st.
Proof. induction l as [|z l IH]; intros st; [reflexivity|]. cbn [turns]. cbv zeta. cbn [snd]. rewrite IH. reflexivity. Qed.
Lemma two_head_arrs C st : arrs (snd (exec C two_head st)) = arrs st.
Proof.
  unfold two_head, precomp_wnaf_prog. rewrite !(proj2 (exec_seq _ _ _ _)), (proj2 (exec_for _ _ _ _ _ _)), padd_turns. reflexivity.
Qed.
Definition two_labels : labels := mk_labels (fun _ => false) (fun x => existsb (String.eqb x) ["a"%string; "b"%string]).
Lemma two_low C P a b a' b' : low C C two_labels (two_store C a b P) (two_store C a' b' P).
Proof.
  split; [reflexivity|]. intros x Hx i. unfold two_store, set_pt, with_cmb, with_arr, store0. cbn [arrs].
  destruct (String.eqb_spec x "b"%string) as [->|]; [discriminate Hx|]. destruct (String.eqb_spec x "a"%string) as [->|]; [discriminate Hx|reflexivity].
Qed.
Lemma two_first C s P a b a' b' : fst (exec C (var_smul_wnaf_two_prog s) (two_store C a b P)) = fst (exec C (var_smul_wnaf_two_prog s) (two_store C a' b' P)) ->
  exists r r', fst (exec C (scalar_wnaf_prog s "anaf" "a") (snd (exec C two_head (two_store C a b P)))) ++ r =
    fst (exec C (scalar_wnaf_prog s "anaf" "a") (snd (exec C two_head (two_store C a' b' P)))) ++ r'.
Proof.
  intros E. unfold two_head. eapply leak_at; [|exact E]. exact (proj1 (check_sound C C two_labels two_head _ _ eq_refl (two_low C P a b a' b'))).
Qed.
Theorem C62_verification_leaks_refuted :
  forall C s P a b a' b', Z.odd (bytes_arr a 0) <> Z.odd (bytes_arr a' 0) ->
    trace C (var_smul_wnaf_two_prog s) (two_store C a b P) <> trace C (var_smul_wnaf_two_prog s) (two_store C a' b' P).
Proof.
  intros C s P a b a' b' N E. apply N. clear N. apply two_first in E. destruct E as (r & r' & E).
  destruct (scalar_wnaf_trace C s "anaf" "a" (snd (exec C two_head (two_store C a b P)))) as [q Eq].
  destruct (scalar_wnaf_trace C s "anaf" "a" (snd (exec C two_head (two_store C a' b' P)))) as [q' Eq'].
  rewrite Eq, Eq', !two_head_arrs in E. cbn [app] in E. injection E as E _. exact E.
Qed.
Print Assumptions C62_verification_leaks_refuted.

(** * The block cipher looks tables up at secret indices: the trace of one round function reveals its whole argument (a half block
    plus a round key). *)
Lemma reads_inj a b c d i1 i2 i3 i4 j1 j2 j3 j4 : [Reads a i1; Reads b i2; Reads c i3; Reads d i4] = [Reads a j1; Reads b j2; Reads c j3; Reads d j4] ->
  i1 = j1 /\ i2 = j2 /\ i3 = j3 /\ i4 = j4.
Proof. intros E. injection E. auto. Qed.
Lemma f_trace C (st : store C) x : trace C f_prog (set_var C st "x" x) =
  [Reads "k87" (Z.land (Z.shiftr x 24) 255); Reads "k65" (Z.land (Z.shiftr x 16) 255); Reads "k43" (Z.land (Z.shiftr x 8) 255); Reads "k21" (Z.land x 255)].
Proof. reflexivity. Qed.
Theorem C62_gost28147_rounds_leak_refuted :
  forall C (st : store C) x y, 0 <= x < 2 ^ 32 -> 0 <= y < 2 ^ 32 ->
    trace C f_prog (set_var C st "x" x) = trace C f_prog (set_var C st "x" y) -> x = y.
Proof.
  intros C st x y Hx Hy E. rewrite !f_trace in E. apply reads_inj in E. destruct E as (E1 & E2 & E3 & E4).
  assert (B : forall z, 0 <= z < 2 ^ 32 -> z = Z.land z 255 + 256 * (Z.land (Z.shiftr z 8) 255 + 256 * (Z.land (Z.shiftr z 16) 255 + 256 * Z.land (Z.shiftr z 24) 255))).
  { intros z Hz. change 255 with (Z.ones 8). rewrite !Z.land_ones, !Z.shiftr_div_pow2 by lia. change (2 ^ 8) with 256. change (2 ^ 16) with 65536. change (2 ^ 24) with 16777216.
    change (2 ^ 32) with 4294967296 in Hz. pose proof (Z.div_mod z 256). pose proof (Z.div_mod (z / 256) 256). pose proof (Z.div_mod (z / 65536) 256).
    replace (z / 65536) with (z / 256 / 256) in * by (rewrite Z.div_div by lia; reflexivity).
    replace (z / 16777216) with (z / 256 / 256 / 256) in * by (rewrite !Z.div_div by lia; reflexivity).
    assert (z / 256 / 256 / 256 < 256) by (rewrite !Z.div_div by lia; apply Z.div_lt_upper_bound; lia).
    assert (0 <= z / 256 / 256 / 256) by (rewrite !Z.div_div by lia; apply Z.div_pos; lia).
    rewrite (Z.mod_small (z / 256 / 256 / 256)) by lia. lia. }
  rewrite (B x Hx), (B y Hy). congruence.
Qed.
Print Assumptions C62_gost28147_rounds_leak_refuted.

(** The programs do compute: multiples in the group of integers, for a one-byte scalar. *)
Local Open Scope string_scope.
Example C62_demo :
  let Z_ := mk_group Z Z.add Z.opp 0 (fun _ => None) 1 1000003 1 1%nat OtherNid true (fun j k => Z.of_nat (2 * k + 1) * 1024 ^ Z.of_nat j) in
  let s := mk_shape 1 3 2 2 false in
  (forall x, In x [1; 44; 255]%N ->
     pts (snd (exec Z_ (var_smul_rwnaf_prog s) (one_store Z_ [x] 7))) "Q" 0 = 7 * Z.of_N x /\
     pts (snd (exec Z_ (fixed_smul_cmb_prog s) (one_store Z_ [x] 7))) "Q" 0 = Z.of_N x) /\
  pts (snd (exec Z_ (var_smul_wnaf_two_prog s) (two_store Z_ [5]%N [9]%N 7))) "Q" 0 = 5 + 9 * 7 /\
  (exists a b, Z.odd (bytes_arr a 0) <> Z.odd (bytes_arr b 0)).
Proof.
  cbv zeta. split; [|split].
  - intros x [<-|[<-|[<-|[]]]]; vm_compute; auto.
  - vm_compute. reflexivity.
  - exists [1]%N, [2]%N. vm_compute. discriminate.
Qed.
