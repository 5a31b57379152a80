(** The EVP layer over a block function that follows a whole-message law, and the laws of the provider's ciphers. *)
From Coq Require Import ZArith NArith List Bool Lia.
From Verif Require Import Bytes BytesProofs StreamMode Gost89Model CryptModel KuzCipherModel ProvCipherModel ProvCipherSpec.
Import ListNotations.
Local Open Scope nat_scope.

Lemma run_chunks_app {C} (f : C -> list N -> C * list N) a b c :
  run_chunks C f c (a ++ b) = (let (c1, o1) := run_chunks C f c a in let (c2, o2) := run_chunks C f c1 b in (c2, o1 ++ o2)).
Proof.
  revert c. induction a as [|x a IH]; intros c; cbn [app run_chunks].
  - destruct (run_chunks C f c b); reflexivity.
  - destruct (f c x) as [c1 o1]. rewrite IH. destruct (run_chunks C f c1 a) as [c2 o2]. destruct (run_chunks C f c2 b). rewrite app_assoc. reflexivity.
Qed.
Lemma mod_app bs (a b : list N) : 0 < bs -> length a mod bs = 0 -> length (a ++ b) mod bs = length b mod bs.
Proof. intros H E. rewrite app_length, <- Nat.add_mod_idemp_l, E by lia. reflexivity. Qed.
Lemma wholes_split bs w b : 0 < bs -> length w mod bs = 0 -> length b < bs -> wholes bs (w ++ b) = w.
Proof.
  intros H E L. unfold wholes. rewrite mod_app by assumption. rewrite (Nat.mod_small (length b)) by lia.
  rewrite app_length. replace (length w + length b - length b) with (length w) by lia. rewrite firstn_app, firstn_all, Nat.sub_diag. apply app_nil_r.
Qed.
Lemma complete_split bs w b : 0 < bs -> length w mod bs = 0 -> length b < bs -> complete bs (w ++ b) = (length b =? 0).
Proof. intros H E L. unfold complete. rewrite mod_app by assumption. rewrite Nat.mod_small by lia. reflexivity. Qed.

Section Evp.
Variables (a : alg) (c0 : core) (F : list N -> list N).
Notation bs := (bsize a).
Hypothesis bs_pos : 0 < bs.
Definition chunk (d : list N) : Prop := length d mod bs = 0 /\ bytes d.
Hypothesis law : forall chs, Forall chunk chs -> snd (run_chunks core (cdo a) c0 chs) = F (concat chs).
Hypothesis len : forall m, chunk m -> length (F m) = length m.
Definition after (chs : list (list N)) : core := fst (run_chunks core (cdo a) c0 chs).

Lemma chunks_concat chs : Forall chunk chs -> chunk (concat chs).
Proof.
  induction 1 as [|d t [D1 D2] _ [I1 I2]]; cbn [concat].
  - split; [apply Nat.mod_0_l; lia|constructor].
  - split; [rewrite mod_app by assumption; exact I1|apply bytes_app; assumption].
Qed.
Lemma extend chs x : Forall chunk chs -> chunk x -> let (c, o) := cdo a (after chs) x in
  c = after (chs ++ [x]) /\ F (concat chs ++ x) = F (concat chs) ++ o.
Proof.
  intros H X. assert (H' : Forall chunk (chs ++ [x])) by (apply Forall_app; split; [exact H|constructor; [exact X|constructor]]).
  pose proof (law (chs ++ [x]) H') as L'. pose proof (law chs H) as L. unfold after. rewrite run_chunks_app in *.
  destruct (run_chunks core (cdo a) c0 chs) as [c1 o1]. cbn [fst snd run_chunks] in *. destruct (cdo a c1 x) as [c2 o2]. cbn [fst snd] in *.
  rewrite concat_app in L'. cbn [concat] in L'. rewrite !app_nil_r in L'. split; [reflexivity|]. rewrite <- L', <- L. reflexivity.
Qed.

(** The context after the message m *)
Definition holds (v : ectx) (m : list N) : Prop :=
  v_alg v = a /\ bytes m /\ length (v_buf v) < bs /\ exists chs, Forall chunk chs /\ m = concat chs ++ v_buf v /\ v_core v = after chs.
Definition same (v v' : ectx) : Prop := v_cipher v' = v_cipher v /\ v_enc v' = v_enc v /\ v_final v' = v_final v /\ v_nopad v' = v_nopad v.
Lemma holds_wholes v m : holds v m -> exists w, m = w ++ v_buf v /\ chunk w /\ wholes bs m = w /\ complete bs m = (length (v_buf v) =? 0).
Proof.
  intros (_ & _ & L & chs & C & -> & _). exists (concat chs). pose proof (chunks_concat chs C) as K. split; [reflexivity|]. split; [exact K|].
  split; [apply wholes_split; [exact bs_pos|apply K|exact L]|apply complete_split; [exact bs_pos|apply K|exact L]].
Qed.
Lemma cut (d : list N) : let i := length d mod bs in let n := length d - i in
  length (firstn n d) mod bs = 0 /\ length (skipn n d) = i /\ i < bs.
Proof.
  cbv zeta. assert (M : length d mod bs < bs) by (apply Nat.mod_upper_bound; lia). assert (length d mod bs <= length d) by (apply Nat.mod_le; lia).
  rewrite firstn_length, skipn_length, Nat.min_l by lia. split; [|lia].
  pose proof (Nat.div_mod_eq (length d) bs). replace (length d - length d mod bs) with (length d / bs * bs) by lia. apply Nat.mod_mul. lia.
Qed.
Lemma enc_update_ok v m d : holds v m -> bytes d -> let (v', o) := enc_update v d in
  holds v' (m ++ d) /\ same v v' /\ F (wholes bs (m ++ d)) = F (wholes bs m) ++ o.
Proof.
  intros HH Bd. destruct (holds_wholes v m HH) as (w & _ & _ & WM & _). destruct HH as (A & Bm & L & chs & C & E & K).
  assert (CC : chunk (concat chs)) by (apply chunks_concat, C).
  assert (W : wholes bs m = concat chs) by (rewrite E; apply wholes_split; [exact bs_pos|apply CC|exact L]).
  clear w WM. rewrite W.
  (* the general step *)
  assert (G : forall xs b o c', Forall chunk xs -> concat (chs ++ xs) ++ b = m ++ d -> length b < bs -> c' = after (chs ++ xs) ->
    F (concat (chs ++ xs)) = F (concat chs) ++ o ->
    let v' := mk_ectx (v_cipher v) a c' (v_enc v) b (v_final v) (v_nopad v) in
    holds v' (m ++ d) /\ same v v' /\ F (wholes bs (m ++ d)) = F (concat chs) ++ o).
  { intros xs b o c' X Q Lb -> Fo. cbv zeta. assert (CX : Forall chunk (chs ++ xs)) by (apply Forall_app; auto).
    split; [|split].
    - split; [reflexivity|]. split; [apply bytes_app; assumption|]. split; [exact Lb|]. exists (chs ++ xs). split; [exact CX|]. split; [symmetry; exact Q|reflexivity].
    - repeat split.
    - rewrite <- Q, wholes_split; [exact Fo|exact bs_pos|apply chunks_concat, CX|exact Lb]. }
  unfold enc_update. rewrite A, K. destruct (v_buf v) as [|b0 bt] eqn:Eb.
  - rewrite app_nil_r in E. destruct (Nat.eqb_spec (length d mod bs) 0) as [Z|NZ].
    + pose proof (extend chs d C (conj Z Bd)) as X. destruct (cdo a (after chs) d) as [c o]. destruct X as [X1 X2].
      apply (G [d]); [constructor; [split; assumption|constructor]| |exact bs_pos|exact X1|].
      * rewrite concat_app, E. cbn [concat]. rewrite !app_nil_r. reflexivity.
      * rewrite concat_app. cbn [concat]. rewrite app_nil_r. exact X2.
    + cbv zeta. destruct (cut d) as (C1 & C2 & C3). set (n := length d - length d mod bs) in *.
      destruct (Nat.eqb_spec n 0) as [Z|NZ'].
      * apply (G []); [constructor| | |rewrite app_nil_r; reflexivity|rewrite !app_nil_r; reflexivity].
        -- rewrite app_nil_r, E. reflexivity.
        -- rewrite Z in C2. cbn [skipn] in C2. lia.
      * assert (CF : chunk (firstn n d)) by (split; [exact C1|apply bytes_firstn, Bd]).
        pose proof (extend chs (firstn n d) C CF) as X. destruct (cdo a (after chs) (firstn n d)) as [c o]. destruct X as [X1 X2].
        apply (G [firstn n d]); [constructor; [exact CF|constructor]| |lia|exact X1|].
        -- rewrite concat_app, E. cbn [concat]. rewrite app_nil_r, <- app_assoc, firstn_skipn. reflexivity.
        -- rewrite concat_app. cbn [concat]. rewrite app_nil_r. exact X2.
  - set (buf := b0 :: bt) in *. assert (Bb : bytes buf) by (rewrite E in Bm; apply bytes_app_inv in Bm; apply Bm).
    assert (Lp : 0 < length buf) by (unfold buf; cbn [length]; lia).
    destruct (Nat.ltb_spec (length d) (bs - length buf)) as [Lt|Ge].
    + apply (G []); [constructor| | |rewrite app_nil_r; reflexivity|rewrite !app_nil_r; reflexivity].
      * rewrite app_nil_r, E. rewrite <- app_assoc. reflexivity.
      * rewrite app_length. lia.
    + set (j := bs - length buf) in *. assert (CX : chunk (buf ++ firstn j d)).
      { split; [|apply bytes_app; [exact Bb|apply bytes_firstn, Bd]]. rewrite app_length, firstn_length, Nat.min_l by lia.
        replace (length buf + j) with bs by lia. apply Nat.mod_same. lia. }
      pose proof (extend chs _ C CX) as X. destruct (cdo a (after chs) (buf ++ firstn j d)) as [c o1]. destruct X as [X1 X2].
      cbv zeta. set (x1 := buf ++ firstn j d) in *. assert (C1 : Forall chunk (chs ++ [x1])) by (apply Forall_app; split; [exact C|constructor; [exact CX|constructor]]).
      assert (E1 : concat (chs ++ [x1]) ++ skipn j d = m ++ d).
      { rewrite concat_app, E. cbn [concat]. unfold x1. rewrite app_nil_r, <- !app_assoc, firstn_skipn. reflexivity. }
      assert (FX : F (concat (chs ++ [x1])) = F (concat chs) ++ o1) by (rewrite concat_app; cbn [concat]; rewrite app_nil_r; exact X2).
      assert (Br : bytes (skipn j d)) by (apply bytes_skipn, Bd). set (r := skipn j d) in *.
      destruct (cut r) as (R1 & R2 & R3). set (n := length r - length r mod bs) in *. destruct (Nat.eqb_spec n 0) as [Z|NZ].
      * apply (G [x1]); [constructor; [exact CX|constructor]|exact E1| |exact X1|exact FX].
        rewrite Z in R2. cbn [skipn] in R2. lia.
      * assert (CF : chunk (firstn n r)) by (split; [exact R1|apply bytes_firstn, Br]).
        pose proof (extend (chs ++ [x1]) (firstn n r) C1 CF) as Y. rewrite X1. destruct (cdo a (after (chs ++ [x1])) (firstn n r)) as [c2 o2].
        destruct Y as [Y1 Y2]. apply (G [x1; firstn n r]).
        -- constructor; [exact CX|]. constructor; [exact CF|constructor].
        -- change [x1; firstn n r] with ([x1] ++ [firstn n r]). rewrite app_assoc, concat_app. cbn [concat]. rewrite app_nil_r, <- app_assoc, firstn_skipn. exact E1.
        -- lia.
        -- rewrite Y1, <- app_assoc. reflexivity.
        -- change [x1; firstn n r] with ([x1] ++ [firstn n r]). rewrite app_assoc, concat_app. cbn [concat]. rewrite app_nil_r, Y2, FX, app_assoc. reflexivity.
Qed.

(** What the caller has got *)
Definition shown (enc pad : bool) (m : list N) : list N :=
  let out := F (wholes bs m) in
  if (1 <? bs) && negb enc && pad && complete bs m then firstn (length out - bs) out else out.
Definition kept_ok (v : ectx) (m : list N) : Prop :=
  v_final v = if (1 <? bs) && negb (v_enc v) && negb (v_nopad v) && complete bs m && negb (length m =? 0)
              then Some (skipn (length (F m) - bs) (F m)) else None.
Definition full (v : ectx) (m : list N) : Prop := holds v m /\ kept_ok v m.
Lemma len_wholes v m : holds v m -> length (F (wholes bs m)) = length (wholes bs m).
Proof. intros H. destruct (holds_wholes v m H) as (w & _ & C & -> & _). apply len, C. Qed.
Lemma shown_kept v m : full v m -> shown (v_enc v) (negb (v_nopad v)) m ++ match v_final v with Some b => b | None => [] end = F (wholes bs m).
Proof.
  intros [H K]. unfold kept_ok in K. rewrite K. unfold shown. destruct ((1 <? bs) && negb (v_enc v) && negb (v_nopad v)); cbn [andb]; [|apply app_nil_r].
  destruct (holds_wholes v m H) as (w & E & C & W & Q). rewrite W, Q. destruct (Nat.eqb_spec (length (v_buf v)) 0) as [Z|NZ]; cbn [andb]; [|apply app_nil_r].
  destruct (v_buf v); [|cbn in Z; lia]. rewrite app_nil_r in E. subst m. destruct (Nat.eqb_spec (length w) 0) as [Z'|NZ']; cbn [negb].
  - assert (L : length (F w) = 0) by (rewrite len by assumption; exact Z'). destruct (F w); [reflexivity|cbn in L; lia].
  - apply firstn_skipn.
Qed.
Lemma update_ok v m d : full v m -> bytes d -> let (v', o) := evp_update v d in
  full v' (m ++ d) /\ v_cipher v' = v_cipher v /\ v_enc v' = v_enc v /\ v_nopad v' = v_nopad v /\
  shown (v_enc v) (negb (v_nopad v)) (m ++ d) = shown (v_enc v) (negb (v_nopad v)) m ++ o.
Proof.
  intros FF Bd. pose proof FF as [HH KK].
  assert (CS : d = [] \/ (length d <> 0 /\ evp_update v d = if v_enc v then enc_update v d else dec_update v d))
    by (destruct d; [left; reflexivity|right; split; [discriminate|reflexivity]]).
  destruct CS as [-> |[ND EU]]; [cbn [evp_update]; rewrite !app_nil_r; auto|]. rewrite EU. clear EU.
  pose proof (enc_update_ok v m d HH Bd) as U. pose proof (shown_kept v m FF) as SK. destruct HH as (A & HH). destruct (v_enc v) eqn:En.
  - destruct (enc_update v d) as [v' o]. destruct U as (H' & (S1 & S2 & S3 & S4) & FO). rewrite S1, S2, S4, En. unfold kept_ok in KK. rewrite En in KK. cbn [negb andb] in KK.
    rewrite andb_false_r in KK. cbn [andb] in KK. split; [|split; [reflexivity|split; [reflexivity|split; [reflexivity|]]]].
    + split; [exact H'|]. unfold kept_ok. rewrite S3, S2, En, KK. cbn [negb andb]. rewrite andb_false_r. reflexivity.
    + unfold shown. cbn [negb andb]. rewrite andb_false_r. cbn [andb]. exact FO.
  - unfold dec_update. rewrite A. destruct (v_nopad v) eqn:Np.
    + destruct (enc_update v d) as [v' o]. destruct U as (H' & (S1 & S2 & S3 & S4) & FO). rewrite S1, S2, S4, En, Np. unfold kept_ok in KK. rewrite En, Np in KK. cbn [negb andb] in KK.
      rewrite andb_false_r in KK. cbn [andb] in KK. split; [|split; [reflexivity|split; [reflexivity|split; [reflexivity|]]]].
      * split; [exact H'|]. unfold kept_ok. rewrite S3, S2, S4, En, Np, KK. cbn [negb andb]. rewrite andb_false_r. reflexivity.
      * unfold shown. cbn [negb andb]. rewrite andb_false_r. cbn [andb]. exact FO.
    + cbv zeta. destruct (enc_update v d) as [v' o]. destruct U as (H' & (S1 & S2 & S3 & S4) & FO).
      destruct (holds_wholes v' (m ++ d) H') as (w & E & C & W & Q). rewrite En, Np in *.
      assert (KQ : forall f, (f = if (1 <? bs) && complete bs (m ++ d) then Some (skipn (length (F (m ++ d)) - bs) (F (m ++ d))) else None) ->
        full (mk_ectx (v_cipher v') (v_alg v') (v_core v') (v_enc v') (v_buf v') f (v_nopad v')) (m ++ d)).
      { intros f Ef. split; [exact H'|]. unfold kept_ok. cbn [v_final v_enc v_nopad]. rewrite S2, S4, Ef. cbn [negb andb]. rewrite !andb_true_r.
        replace (length (m ++ d) =? 0) with false by (symmetry; apply Nat.eqb_neq; rewrite app_length; lia). cbn [negb]. rewrite andb_true_r. reflexivity. }
      destruct (Nat.ltb_spec 1 bs) as [B1|B1]; cbn [andb] in *.
      * destruct (Nat.eqb_spec (length (v_buf v')) 0) as [Z|NZ]; cbn [v_cipher v_enc v_nopad].
        -- assert (Wd : wholes bs (m ++ d) = m ++ d) by (rewrite W, E; destruct (v_buf v'); [rewrite app_nil_r; reflexivity|cbn in Z; lia]).
           assert (Lo : bs <= length o).
           { pose proof (len_wholes v' (m ++ d) H') as L1. rewrite FO, app_length, (len_wholes v m (conj A HH)) in L1. rewrite Wd in L1.
             destruct (holds_wholes v m (conj A HH)) as (w0 & E0 & C0 & W0 & _). rewrite <- Wd, W in L1. destruct C as [C _], C0 as [C0 _].
             assert (length w > length w0). { rewrite <- W, Wd, E0, !app_length. lia. }
             pose proof (Nat.div_mod_eq (length w) bs) as P1. pose proof (Nat.div_mod_eq (length w0) bs) as P2. rewrite C in P1. rewrite C0 in P2.
             assert (P3 : length w0 / bs < length w / bs) by nia. rewrite W0 in L1. nia. }
           split.
           { apply KQ. rewrite Q. rewrite <- Wd, FO, app_length, skipn_app. rewrite (skipn_all2 (F (wholes bs m))) by lia. cbn [app]. do 2 f_equal. lia. }
           split; [exact S1|]. split; [exact S2|]. split; [exact S4|].
           unfold shown at 1. rewrite Q. destruct (Nat.ltb_spec 1 bs); [|lia]. cbn [negb andb]. rewrite FO, <- SK. rewrite (app_assoc _ _ (firstn _ o)). rewrite app_length, firstn_app.
           rewrite firstn_all2 by lia. do 2 f_equal. lia.
        -- split; [apply KQ; rewrite Q; reflexivity|]. split; [exact S1|]. split; [exact S2|]. split; [exact S4|].
           unfold shown at 1. rewrite Q. rewrite andb_false_r. rewrite FO, <- SK, <- app_assoc. reflexivity.
      * cbn [v_cipher v_enc v_nopad]. split; [apply KQ; reflexivity|]. split; [exact S1|]. split; [exact S2|]. split; [exact S4|].
        unfold shown at 1. destruct (Nat.ltb_spec 1 bs); [lia|]. cbn [andb]. rewrite FO, <- SK, <- app_assoc. reflexivity.
Qed.

Hypothesis bs_small : bs < 256.
Definition end_of (enc pad : bool) (m : list N) : option (list N) :=
  let rest out := skipn (length (shown enc pad m)) out in
  if (bs =? 1) then Some []
  else if pad then
    if enc then Some (rest (F (padded bs m)))
    else if complete bs m then option_map rest (unpadded bs (F m)) else None
  else if complete bs m then Some [] else None.
Lemma nth_last (l : list N) d : nth (length l - 1) l d = last l d.
Proof.
  induction l as [|x l IH]; [reflexivity|]. destruct l as [|y l]; [reflexivity|]. change (last (x :: y :: l) d) with (last (y :: l) d). rewrite <- IH.
  cbn [length]. replace (S (S (length l)) - 1) with (S (length l)) by lia. replace (S (length l) - 1) with (length l) by lia. reflexivity.
Qed.
Lemma nth_skipn (l : list N) i j d : nth i (skipn j l) d = nth (j + i) l d.
Proof. revert l. induction j as [|j IH]; intros l; [reflexivity|]. destruct l as [|x l]; [destruct i; reflexivity|]. cbn [skipn Nat.add nth]. apply IH. Qed.
Lemma skipn_skipn' (l : list N) i j : skipn i (skipn j l) = skipn (j + i) l.
Proof. revert l. induction j as [|j IH]; intros l; [reflexivity|]. destruct l as [|x l]; [destruct i; reflexivity|]. cbn [skipn Nat.add]. apply IH. Qed.
Lemma firstn_skipn' (l : list N) i j : firstn i (skipn j l) = skipn j (firstn (j + i) l).
Proof. symmetry. rewrite skipn_firstn_comm. f_equal. lia. Qed.
Lemma final_ok v m : full v m -> let (v', o) := evp_final v in
  v_alg v' = a /\ v_cipher v' = v_cipher v /\ v_enc v' = v_enc v /\ v_nopad v' = v_nopad v /\
  (exists chs, Forall chunk chs /\ v_core v' = after chs) /\ o = end_of (v_enc v) (negb (v_nopad v)) m.
Proof.
  intros FF. pose proof FF as [HH KK]. destruct (holds_wholes v m HH) as (w & E & C & W & Q). pose proof (shown_kept v m FF) as SK. destruct HH as (A & Bm & L & chs & CC & Em & K).
  unfold evp_final, end_of. rewrite A.
  unfold kept_ok in KK. remember (v_enc v) as en eqn:En. remember (v_nopad v) as np eqn:Np.
  assert (G : forall o o', o = o' -> let (v', o) := (v, o) in v_alg v' = a /\ v_cipher v' = v_cipher v /\ v_enc v' = en /\ v_nopad v' = np /\ (exists chs, Forall chunk chs /\ v_core v' = after chs) /\ o = o' :> option (list N)).
  { intros o o' Eo. cbv iota beta. rewrite A, En, Np. eauto 10. }
  destruct en.
  - destruct (Nat.eqb_spec bs 1) as [B1|B1]; [apply G; reflexivity|]. destruct np; cbn [negb].
    + rewrite Q. apply G. reflexivity.
    + cbv zeta. set (n := bs - length (v_buf v)) in *.
      assert (PC : chunk (v_buf v ++ repeat (N.of_nat n) n)).
      { split; [rewrite app_length, repeat_length; replace (length (v_buf v) + n) with bs by lia; apply Nat.mod_same; lia|].
        apply bytes_app; [rewrite E in Bm; apply bytes_app_inv in Bm; apply Bm|]. unfold bytes. apply Forall_forall. intros x X. apply repeat_spec in X. subst x. unfold isbyte. lia. }
      pose proof (extend chs _ CC PC) as X. rewrite K. destruct (cdo a (after chs) (v_buf v ++ repeat (N.of_nat n) n)) as [c o]. destruct X as [X1 X2].
      cbn [v_alg v_cipher v_enc v_nopad v_core]. split; [reflexivity|]. split; [reflexivity|]. split; [auto|]. split; [auto|]. split.
      * exists (chs ++ [v_buf v ++ repeat (N.of_nat n) n]). split; [|exact X1]. apply Forall_app. split; [exact CC|constructor; [exact PC|constructor]].
      * f_equal. unfold shown. cbn [negb andb]. rewrite andb_false_r. cbn [andb].
        assert (W' : wholes bs m = concat chs) by (rewrite Em; apply wholes_split; [exact bs_pos|apply chunks_concat, CC|exact L]).
        replace (padded bs m) with (concat chs ++ v_buf v ++ repeat (N.of_nat n) n).
        2: { unfold padded. assert (length m mod bs = length (v_buf v)) as ->.
             { rewrite Em, mod_app, Nat.mod_small by (try apply chunks_concat; assumption). reflexivity. }
             fold n. rewrite Em, <- app_assoc. reflexivity. }
        rewrite X2, W', skipn_app, skipn_all, Nat.sub_diag. reflexivity.
  - destruct np; cbn [negb].
    + rewrite Q. apply G. destruct (Nat.eqb_spec bs 1) as [B1|B1]; [|reflexivity]. destruct (v_buf v); [reflexivity|cbn in L; lia].
    + destruct (Nat.ltb_spec 1 bs) as [B1|B1]; [|replace (bs =? 1) with true by (symmetry; apply Nat.eqb_eq; lia); apply G; reflexivity].
      replace (bs =? 1) with false by (symmetry; apply Nat.eqb_neq; lia). rewrite Q in KK. rewrite Q.
      replace (1 <? bs) with true in KK by (symmetry; apply Nat.ltb_lt; exact B1). cbn [negb andb] in KK.
      destruct (v_buf v) as [|b0 bt] eqn:Eb; cbn [length Nat.eqb] in *; [|cbn [andb] in KK; apply G; reflexivity].
      cbn [andb] in KK. rewrite app_nil_r in E. subst w. destruct (Nat.eqb_spec (length m) 0) as [Z|NZ]; cbn [negb] in KK; rewrite KK.
      * apply G. assert (LF : length (F m) = 0) by (rewrite len by assumption; exact Z). destruct (F m); [reflexivity|cbn in LF; lia].
      * assert (LF : length (F m) = length m) by (apply len, C). assert (Lm : bs <= length m).
        { destruct C as [C _]. pose proof (Nat.div_mod_eq (length m) bs) as P. rewrite C in P. assert (length m / bs <> 0) by (intros Z; rewrite Z in P; lia). nia. }
        set (x := F m) in *. assert (Nl : nth (bs - 1) (skipn (length x - bs) x) 0%N = last x 0%N).
        { rewrite nth_skipn, <- nth_last. f_equal. lia. }
        cbv zeta. rewrite Nl. unfold unpadded. set (n := N.to_nat (last x 0%N)) in *.
        assert (Sh : length (shown false true m) = length x - bs).
        { unfold shown. rewrite Q, W. replace (1 <? bs) with true by (symmetry; apply Nat.ltb_lt; exact B1). cbn [negb andb]. fold x. rewrite firstn_length. lia. }
        rewrite Sh. destruct (Nat.eqb_spec n 0) as [Zn|Nn]; cbn [orb].
        -- rewrite Zn. cbn [Nat.leb andb option_map]. apply G. reflexivity.
        -- replace (1 <=? n) with true by (symmetry; apply Nat.leb_le; lia). destruct (Nat.ltb_spec bs n) as [Bn|Bn].
           ++ replace (n <=? bs) with false by (symmetry; apply Nat.leb_gt; exact Bn). cbn [andb option_map]. apply G. reflexivity.
           ++ replace (n <=? bs) with true by (symmetry; apply Nat.leb_le; exact Bn). replace (n <=? length x) with true by (symmetry; apply Nat.leb_le; lia). cbn [andb].
              rewrite skipn_skipn'. replace (length x - bs + (bs - n)) with (length x - n) by lia.
              destruct (forallb (N.eqb (N.of_nat n)) (skipn (length x - n) x)); cbn [option_map]; apply G; [|reflexivity].
              f_equal. rewrite firstn_skipn'. do 2 f_equal. lia.
Qed.
End Evp.
