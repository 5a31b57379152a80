(** What the Edwards files' point_mul_two does with a point of order two: its coordinates become four zeros, which
    every formula keeps. *)
From Coq Require Import ZArith Znumtheory NArith List Bool Lia Ring Field.
From Verif Require Import Bytes BytesProofs EcFormulaSpec EcFormulaModel EcFormulaProofs FieldZp
  EcLadderModel EcSpec EcLadderProofs EcModel EcProofs EcCoordModel EcCoordProofs EcCurveSpec EcCurveProofs.
Import ListNotations.
Local Open Scope Z_scope.

Section Zeros.
Variable K : field.
Variable c : consts K.
Variable tab : nat -> nat -> aff K.
Variable junk : mem K.
Add Field KF2 : (f_theory K).
Ltac runed := unfold point_add_proj, point_add_mixed, point_double, point_edwards2legacy, point_legacy2edwards,
    call2, result, run;
  cbn [prog_double prog_add_mixed prog_add_proj ed_double ed_add_mixed ed_add_proj ed_edwards2legacy
       ed_legacy2edwards fold_left step store alias reg_eqb entry pX pY pT pZ aX aY aT].
Ltac four := (split; [ring|split; [ring|split; ring]]).
Notation zero4 := (zero4 K).
Lemma z_add_l same q p : zero4 q -> zero4 (point_add_proj K Edwards same c junk q p).
Proof.
  destruct q as [X Y T Z], p as [X' Y' T' Z']. unfold EcCurveProofs.zero4. cbn [pX pY pT pZ].
  intros (-> & -> & -> & ->). destruct same; runed; four.
Qed.
Lemma z_add_r same q p : zero4 p -> zero4 (point_add_proj K Edwards same c junk q p).
Proof.
  destruct q as [X Y T Z], p as [X' Y' T' Z']. unfold EcCurveProofs.zero4. cbn [pX pY pT pZ].
  intros (-> & -> & -> & ->). destruct same; runed; four.
Qed.
Lemma z_mixed same q e : zero4 q -> zero4 (point_add_mixed K Edwards same c junk q e).
Proof.
  destruct q as [X Y T Z], e as [X' Y' T']. unfold EcCurveProofs.zero4. cbn [pX pY pT pZ].
  intros (-> & -> & -> & ->). destruct same; runed; four.
Qed.
Lemma z_double same q : zero4 q -> zero4 (point_double K Edwards same c junk q).
Proof.
  destruct q as [X Y T Z]. unfold EcCurveProofs.zero4. cbn [pX pY pT pZ]. intros (-> & -> & -> & ->). destruct same; runed; four.
Qed.
Lemma z_neg q : zero4 q -> zero4 (neg_prj K Edwards q).
Proof. unfold EcCurveProofs.zero4, neg_prj. cbn [pX pY pT pZ]. intros (-> & -> & -> & ->). four. Qed.
Lemma z_affine inv q : zero4 q -> to_affine K Edwards c inv junk q = (f0 K, f0 K).
Proof.
  intros (X & Y & T & Z). unfold to_affine.
  assert (E : pX K (point_edwards2legacy K true c junk q) = f0 K /\ pY K (point_edwards2legacy K true c junk q) = f0 K).
  { destruct q as [X' Y' T' Z']. cbn [pX pY pT pZ] in *. subst. runed. split; ring. }
  destruct E as [-> ->]. f_equal; ring.
Qed.
Lemma precomp_keeps (Q : prj K -> Prop) fam one P0 : (forall same q, Q q -> Q (point_double K fam same c junk q)) ->
  (forall same q p, Q q -> Q (point_add_proj K fam same c junk q p)) ->
  Q (precomp_first K fam c one junk P0) -> forall k, (k < 16)%nat ->
  Q (entry_at K junk (coord_precomp K fam c one junk P0) k).
Proof.
  intros HD HA H k L. unfold coord_precomp, entry_at.
  set (p0 := precomp_first K fam c one junk P0) in *. clearbody p0.
  lazy beta iota zeta delta [repeat seq fold_left set_entry nth Nat.eqb Nat.sub].
  do 16 (destruct k as [|k]; [cbv iota beta; repeat first [exact H | apply HD | apply HA]|]). lia.
Qed.
Lemma z_precomp one P0 : zero4 (precomp_first K Edwards c one junk P0) -> forall k, (k < 16)%nat ->
  zero4 (entry_at K junk (coord_precomp K Edwards c one junk P0) k).
Proof. apply precomp_keeps; intros; [apply z_double|apply z_add_l]; assumption. Qed.
Definition zstate (st : prj K * bool * bool) : Prop := let '(q, i, _) := st in i = false /\ zero4 q.

Lemma two_add_keep {A} (tbl : nat -> A) load add st d : (forall q e, zero4 q -> zero4 (add q e)) ->
  zstate st -> zstate (coord_two_add K Edwards tbl load add st d).
Proof.
  intros HA. destruct st as [[q i] fl]. intros [-> Z]. unfold coord_two_add.
  destruct (d =? 0); [split; [reflexivity|exact Z]|]. cbv zeta.
  destruct (xorb (d <? 0) fl); split; try reflexivity; apply HA; [apply z_neg|]; exact Z.
Qed.
Lemma two_add_zero (pre : list (prj K)) st d : (forall k, (k < 16)%nat -> zero4 (entry_at K junk pre k)) ->
  wnaf_digit d -> d <> 0 ->
  zstate (coord_two_add K Edwards (entry_at K junk pre) (fun e => e) (point_add_proj K Edwards true c junk) st d).
Proof.
  intros P WD ND. destruct st as [[q i] fl]. unfold coord_two_add.
  destruct (Z.eqb_spec d 0); [contradiction|]. cbv zeta.
  set (idx := Z.to_nat (if d <? 0 then Z.shiftr (- d - 1) 1 else Z.shiftr (d - 1) 1)).
  assert (I : (idx < 16)%nat).
  { subst idx. destruct WD as [->|[_ WD]]; [contradiction|]. destruct (Z.ltb_spec d 0).
    - pose proof (shiftr1 (- d - 1) ltac:(lia)). lia.
    - pose proof (shiftr1 (d - 1) ltac:(lia)). lia. }
  pose proof (P idx I) as Z. clearbody idx.
  destruct (xorb (d <? 0) fl), i; split; try reflexivity; try exact Z; apply z_add_r, Z.
Qed.
Lemma two_zero_turns one pre ds : (forall k, (k < 16)%nat -> zero4 (entry_at K junk pre k)) ->
  Forall (fun ab => wnaf_digit (snd ab)) ds ->
  forall st, zstate st \/ Exists (fun ab => snd ab <> 0) ds ->
  zstate (fold_left (coord_two_turn K Edwards c one tab junk pre) ds st).
Proof.
  intros P. induction 1 as [|d ds WD _ IH]; intros st H; cbn [fold_left].
  - destruct H as [H|H]; [exact H|inversion H].
  - apply IH. assert (KEEP : zstate st \/ snd d <> 0 -> zstate (coord_two_turn K Edwards c one tab junk pre st d)).
    { intros G. destruct st as [[q i] fl]. unfold coord_two_turn.
      apply two_add_keep; [intros; apply z_mixed; assumption|]. destruct G as [[-> Z]|G].
      - apply two_add_keep; [intros; apply z_add_l; assumption|]. split; [reflexivity|apply z_double, Z].
      - apply two_add_zero; assumption. }
    destruct H as [H|H]; [left; apply KEEP; left; exact H|].
    inversion H; subst; [left; apply KEEP; right; assumption|right; assumption].
Qed.
Lemma radix_zero l : Forall (fun d => d = 0) l -> radix 2 l = 0.
Proof. induction 1 as [|d l -> _ IH]; cbn [radix]; [reflexivity|]. rewrite IH. reflexivity. Qed.
Lemma all_or_some (l : list Z) : Forall (fun d => d = 0) l \/ Exists (fun d => d <> 0) l.
Proof.
  induction l as [|d l [IH|IH]]; [left; constructor| |right; apply Exists_cons_tl, IH].
  destruct (Z.eq_dec d 0); [left; constructor; assumption|right; apply Exists_cons_hd; assumption].
Qed.
Lemma exists_combine (la lb : list Z) : length la = length lb -> Exists (fun d => d <> 0) lb ->
  Exists (fun ab => snd ab <> 0) (combine la lb).
Proof.
  revert lb. induction la as [|x la IH]; intros [|y lb] H E; try discriminate H; [inversion E|].
  cbn [combine]. injection H as H. inversion E; subst; [apply Exists_cons_hd; assumption|apply Exists_cons_tl, IH; assumption].
Qed.
Lemma coord_two_zero one s ln lm P0 : shape_ok s -> bytes ln -> length ln = s_nb s -> bytes lm -> length lm = s_nb s ->
  sval lm <> 0 -> zero4 (precomp_first K Edwards c one junk P0) ->
  zero4 (coord_two K Edwards c one tab junk s ln lm P0).
Proof.
  intros OK BA LA BB LB NM Z. pose proof (z_precomp one P0 Z) as PS. unfold coord_two.
  destruct (scalar_wnaf_spec s ln OK BA LA) as (LNA & _ & _). destruct (scalar_wnaf_spec s lm OK BB LB) as (LNB & WB & RB).
  assert (EX : Exists (fun d => d <> 0) (scalar_wnaf s lm)).
  { destruct (all_or_some (scalar_wnaf s lm)) as [H|H]; [|exact H]. apply radix_zero in H. congruence. }
  assert (FD : Forall (fun ab => wnaf_digit (snd ab)) (rev (combine (scalar_wnaf s ln) (scalar_wnaf s lm)))).
  { apply Forall_rev. rewrite Forall_forall in WB |- *. intros [x y] I. apply WB. apply in_combine_r in I. exact I. }
  assert (ED : Exists (fun ab => snd ab <> 0) (rev (combine (scalar_wnaf s ln) (scalar_wnaf s lm)))).
  { rewrite Exists_exists. pose proof (exists_combine _ _ (eq_trans LNA (eq_sym LNB)) EX) as E'.
    rewrite Exists_exists in E'. destruct E' as (ab & I & N). exists ab. split; [apply in_rev in I; exact I|exact N]. }
  set (ds := rev (combine (scalar_wnaf s ln) (scalar_wnaf s lm))) in *. clearbody ds.
  pose proof (two_zero_turns one _ ds PS FD (zero_prj K, true, false) (or_intror ED)) as T.
  destruct (fold_left _ ds _) as [[q i] fl]. destruct T as [-> T]. destruct fl; [apply z_neg|]; exact T.
Qed.
(** With a zero scalar the point is not used. *)
Lemma turns_unused fam one pre pre' ds : Forall (fun ab => snd ab = 0) ds -> forall st,
  fold_left (coord_two_turn K fam c one tab junk pre) ds st = fold_left (coord_two_turn K fam c one tab junk pre') ds st.
Proof.
  induction 1 as [|d ds E _ IH]; intros st; cbn [fold_left]; [reflexivity|]. rewrite IH. f_equal.
  destruct st as [[q i] fl]. unfold coord_two_turn. rewrite E. reflexivity.
Qed.
End Zeros.
