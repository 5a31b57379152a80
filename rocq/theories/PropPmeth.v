(** Property C46: control calls on public key method contexts, for all keys, requests and histories. *)
From Coq Require Import String ZArith List Bool Lia.
From Verif Require Import Bytes BytesProofs Gost89Model Gost89Sboxes Gost89Spec Gost89Proofs Gost89SpecProofs CryptModel CryptSpec
  CryptProofs ImitProofs Gost89ModeProofs PropGost89 PropCrypt PropImit OmacModel EcLadderModel EcModel ParamsModel ParamsSpec PropParams CmsParamsModel
  PropCms SumModel SumSpec PropSum PmethModel.
Import ListNotations.
Open Scope Z_scope.

(** * Signature and key agreement contexts *)
(** ** A call that reports failure changes nothing *)
Lemma ec_ctrl_failure key d q r d' : pkey_gost_ctrl key d q = Ret r d' -> r <= 0 -> d' = d.
Proof.
  destruct q as [[md|]| | |p|p1 p2|v|c|p1|]; cbn [pkey_gost_ctrl]; intros H Hr; try congruence.
  - destruct (md_fits md key); [injection H as <- <-; lia|congruence].
  - injection H as <- <-; lia.
  - destruct (to_size p1 >? 32); [congruence|]. destruct p2; [injection H as <- <-; lia|congruence].
  - destruct v; try (injection H as <- <-; lia); congruence.
  - injection H as <- <-; lia.
  - destruct ((p1 =? 0) || (p1 =? 1)); [congruence|]. destruct (p1 =? 2); [congruence|]. destruct (p1 =? 3); [injection H as <- <-; lia|congruence].
Qed.
(** A string call is refused or amounts to one numeric call. *)
Lemma common_is_ctrl key d t v : (exists r, ctrl_str_common key d t v = Ret r d /\ r <= 0) \/ ctrl_str_common key d t v = Dead \/
  exists q, ctrl_str_common key d t v = pkey_gost_ctrl key d q.
Proof.
  unfold ctrl_str_common. destruct (String.eqb t "ukmhex"); [|destruct (String.eqb t "vko")].
  - destruct v as [v|]; [|auto]. destruct (hexstr2buf v) as [u|]; [|left; exists 0; split; [reflexivity|lia]].
    destruct (32 <? List.length u)%nat; [left; exists 0; split; [reflexivity|lia]|]. right. right. eauto.
  - destruct v as [v|]; [|auto]. cbv zeta. destruct (atoi v =? 256); [eauto|]. destruct (atoi v =? 512); [eauto|].
    destruct (negb _); [left; exists 0; split; [reflexivity|lia]|eauto].
  - left. exists (-2). split; [reflexivity|lia].
Qed.
Lemma str256_is_ctrl tx key d t v : (exists r, ctrl_str_256 tx key d t v = Ret r d /\ r <= 0) \/ ctrl_str_256 tx key d t v = Dead \/
  exists q, ctrl_str_256 tx key d t v = pkey_gost_ctrl key d q.
Proof.
  unfold ctrl_str_256. destruct (String.eqb t "paramset"); [|apply common_is_ctrl].
  destruct v as [v|]; [|left; exists 0; split; [reflexivity|lia]]. cbv zeta.
  assert (N0 : (exists r, @Ret pdata 0 d = Ret r d /\ r <= 0)) by (exists 0; split; [reflexivity|lia]).
  set (bn := match tx v with None => Ret 0 d | Some n => if in_table R3410_2001_paramset n then pkey_gost_ctrl key d (R_paramset (Some n)) else Ret 0 d end).
  assert (B : (exists r, bn = Ret r d /\ r <= 0) \/ bn = Dead \/ exists q, bn = pkey_gost_ctrl key d q).
  { unfold bn. destruct (tx v) as [n|]; [|auto]. destruct (in_table _ n); eauto. }
  clearbody bn.
  assert (S : forall n, (exists r, pkey_gost_ctrl key d (R_paramset (Some n)) = Ret r d /\ r <= 0) \/ pkey_gost_ctrl key d (R_paramset (Some n)) = Dead \/ exists q, pkey_gost_ctrl key d (R_paramset (Some n)) = pkey_gost_ctrl key d q) by eauto.
  destruct v as [|a [|b [|c [|e v]]]]; auto.
  - repeat match goal with |- context [match toupper a with _ => _ end] => destruct (toupper a) end.
    + auto.
    + do 8 (destruct p as [p|p|]; auto).
  - destruct (toupper a =? 88)%N; [|exact B]. destruct (toupper b) as [|p]; auto. do 8 (destruct p as [p|p|]; auto).
  - destruct (_ && _); [|exact B]. destruct (toupper c) as [|p]; auto. do 8 (destruct p as [p|p|]; auto).
Qed.
Lemma str512_is_ctrl tx key d t v : (exists r, ctrl_str_512 tx key d t v = Ret r d /\ r <= 0) \/ ctrl_str_512 tx key d t v = Dead \/
  exists q, ctrl_str_512 tx key d t v = pkey_gost_ctrl key d q.
Proof.
  unfold ctrl_str_512. destruct (String.eqb t "paramset"); cbn [negb]; [|apply common_is_ctrl].
  destruct v as [v|]; [|left; exists 0; split; [reflexivity|lia]]. cbv zeta.
  assert (N0 : (exists r, @Ret pdata 0 d = Ret r d /\ r <= 0)) by (exists 0; split; [reflexivity|lia]).
  set (bn := match tx v with None => Ret 0 d | Some n => if in_table R3410_2012_512_paramset n then pkey_gost_ctrl key d (R_paramset (Some n)) else Ret 0 d end).
  assert (B : (exists r, bn = Ret r d /\ r <= 0) \/ bn = Dead \/ exists q, bn = pkey_gost_ctrl key d q).
  { unfold bn. destruct (tx v) as [n|]; [|auto]. destruct (in_table _ n); eauto. }
  clearbody bn.
  assert (S : forall n, (exists r, pkey_gost_ctrl key d (R_paramset (Some n)) = Ret r d /\ r <= 0) \/ pkey_gost_ctrl key d (R_paramset (Some n)) = Dead \/ exists q, pkey_gost_ctrl key d (R_paramset (Some n)) = pkey_gost_ctrl key d q) by eauto.
  destruct v as [|a [|b v]]; auto. destruct (toupper a) as [|p]; auto. do 8 (destruct p as [p|p|]; auto).
Qed.
Theorem C46_failed_call_changes_nothing :
  forall txt2nid key d r d', r <= 0 ->
    (forall q, pkey_gost_ctrl key d q = Ret r d' -> d' = d) /\
    (forall t v, ctrl_str_256 txt2nid key d t v = Ret r d' -> d' = d) /\
    (forall t v, ctrl_str_512 txt2nid key d t v = Ret r d' -> d' = d).
Proof.
  intros tx key d r d' Hr. split; [|split].
  - intros q H. exact (ec_ctrl_failure key d q r d' H Hr).
  - intros t v H. destruct (str256_is_ctrl tx key d t v) as [(r0 & E & _)|[E|[q E]]]; rewrite E in H; [congruence|congruence|exact (ec_ctrl_failure key d q r d' H Hr)].
  - intros t v H. destruct (str512_is_ctrl tx key d t v) as [(r0 & E & _)|[E|[q E]]]; rewrite E in H; [congruence|congruence|exact (ec_ctrl_failure key d q r d' H Hr)].
Qed.

(** ** The context is what the last accepted calls made it *)
Fixpoint run (key : option pkey) (d : pdata) (h : list ec_req) : option pdata :=
  match h with
  | nil => Some d
  | q :: h => match pkey_gost_ctrl key d q with Ret _ d => run key d h | Dead => None end
  end.
(** Requests a context with this key accepts. *)
Definition digest_of_type (md : md_nid) (a : pkey_alg) : Prop :=
  (md = M_94 /\ (a = A2001 \/ a = A2001DH)) \/ (md = M_256 /\ a = A2012_256) \/ (md = M_512 /\ a = A2012_512).
Definition last_some {A B} (f : A -> option B) (l : list A) (d : B) : B :=
  fold_left (fun acc x => match f x with Some y => y | None => acc end) l d.
Definition sets_ukm (q : ec_req) : option (list N) :=
  match q with R_set_iv n (Some b) => if (0 <=? n) && (n <=? 32) then Some (firstn (Z.to_nat n) b) else None | _ => None end.
Definition sets_param (q : ec_req) : option (option curve_nid) := match q with R_paramset p => Some p | _ => None end.
Definition sets_vko (q : ec_req) : option vko_nid := match q with R_set_vko Vko_other => None | R_set_vko v => Some v | _ => None end.
Definition sets_cipher (q : ec_req) : option cipher_nid :=
  match q with
  | R_cipher (C_magma_ctr | C_magma_ctr_acpkm | C_magma_ctr_acpkm_omac) => Some C_magma_ctr
  | R_cipher (C_kuz_ctr | C_kuz_ctr_acpkm | C_kuz_ctr_acpkm_omac) => Some C_kuz_ctr
  | R_cipher c => Some c
  | _ => None
  end.
Definition sets_peer (q : ec_req) : option Z := match q with R_peer_key 3 => Some 1 | _ => None end.
(** Arguments are C ints and the buffers are as long as announced. *)
Definition req_ok (q : ec_req) : Prop :=
  match q with R_set_iv n b => - 2 ^ 31 <= n < 2 ^ 31 /\ match b with Some b => n <= Z.of_nat (List.length b) | None => True end | _ => True end.
Definition used_ukm (d : pdata) : list N := firstn (Z.to_nat (d_ukm_size d)) (d_ukm d).
Lemma overwrite0 (u b : list N) : (List.length b <= List.length u)%nat ->
  List.length (overwrite u 0 b) = List.length u /\ firstn (List.length b) (overwrite u 0 b) = b.
Proof.
  intros H. unfold overwrite. cbn [firstn app]. rewrite app_length, skipn_length. split; [cbn; lia|].
  rewrite (firstn_app_exact (List.length b) b _ eq_refl). reflexivity.
Qed.
Lemma to_size_gt p : - 2 ^ 31 <= p < 2 ^ 31 -> (to_size p >? 32) = negb ((0 <=? p) && (p <=? 32)).
Proof.
  intros R. unfold to_size. rewrite Z.gtb_ltb. destruct (Z.leb_spec 0 p); cbn [andb].
  - rewrite Z.mod_small by lia. destruct (Z.leb_spec p 32), (Z.ltb_spec 32 p); try reflexivity; lia.
  - rewrite <- (Z_mod_plus_full p 1 (2 ^ 64)), Z.mod_small by lia. destruct (Z.ltb_spec 32 (p + 1 * 2 ^ 64)); [reflexivity|lia].
Qed.
Lemma step_spec key d q r d' : req_ok q -> List.length (d_ukm d) = 32%nat -> pkey_gost_ctrl key d q = Ret r d' ->
  List.length (d_ukm d') = 32%nat /\
  used_ukm d' = match sets_ukm q with Some x => x | None => used_ukm d end /\
  (sets_ukm q = None -> d_ukm_size d' = d_ukm_size d) /\ (forall x, sets_ukm q = Some x -> 0 <= d_ukm_size d' <= 32) /\
  d_param d' = match sets_param q with Some x => x | None => d_param d end /\
  d_vko d' = match sets_vko q with Some x => x | None => d_vko d end /\
  d_cipher d' = match sets_cipher q with Some x => x | None => d_cipher d end /\
  d_peer_used d' = match sets_peer q with Some x => x | None => d_peer_used d end /\
  (d_md d' = d_md d \/ exists md k, q = R_md (Some md) /\ key = Some k /\ digest_of_type md (k_alg k) /\ d_md d' = Some md).
Proof.
  intros Q L H. destruct q as [[md|]| | |p|p1 p2|v|c|p1|]; cbn [pkey_gost_ctrl sets_ukm sets_param sets_vko sets_cipher sets_peer] in *; try discriminate H.
  - destruct (md_fits md key) eqn:F; injection H as <- <-; cbn; repeat (split; [auto; congruence|]); [right|left; reflexivity].
    destruct key as [k|]; [|destruct md; discriminate F]. exists md, k. repeat (split; [reflexivity|]). split; [|reflexivity].
    unfold digest_of_type. destruct md; try discriminate F; cbn in F; destruct (k_alg k); try discriminate F; auto.
  - injection H as <- <-; cbn; repeat (split; [auto; congruence|]); left; reflexivity.
  - injection H as <- <-; cbn; repeat (split; [auto; congruence|]); left; reflexivity.
  - injection H as <- <-; cbn; repeat (split; [auto; congruence|]); left; reflexivity.
  - cbn [req_ok] in Q. destruct Q as [Q1 Q2]. rewrite to_size_gt in H by exact Q1.
    destruct ((0 <=? p1) && (p1 <=? 32)) eqn:R; cbn [negb] in H.
    + apply andb_prop in R as [R1 R2]. apply Z.leb_le in R1, R2. destruct p2 as [b|]; injection H as <- <-; cbn [with_ukm d_ukm d_ukm_size d_param d_vko d_cipher d_peer_used d_md].
      * assert (Lb : List.length (firstn (Z.to_nat p1) b) = Z.to_nat p1) by (rewrite firstn_length; lia).
        destruct (overwrite0 (d_ukm d) (firstn (Z.to_nat p1) b)) as [O1 O2]; [rewrite Lb, L; lia|].
        split; [rewrite O1; exact L|]. split; [unfold used_ukm; cbn [d_ukm d_ukm_size]; rewrite Lb in O2; exact O2|]. split; [congruence|]. split; [intros _ _; lia|].
        repeat (split; [reflexivity|]). left; reflexivity.
      * repeat (split; [auto; congruence|]); left; reflexivity.
    + injection H as <- <-. destruct p2; repeat (split; [auto; congruence|]); left; reflexivity.
  - destruct v; injection H as <- <-; cbn; repeat (split; [auto; congruence|]); left; reflexivity.
  - injection H as <- <-; destruct c; cbn; repeat (split; [auto; congruence|]); left; reflexivity.
  - destruct (Z.eqb_spec p1 0) as [->|]; [injection H as <- <-; cbn; repeat (split; [auto; congruence|]); left; reflexivity|].
    destruct (Z.eqb_spec p1 1) as [->|]; [injection H as <- <-; cbn; repeat (split; [auto; congruence|]); left; reflexivity|]. cbn [orb] in H.
    destruct (Z.eqb_spec p1 2) as [->|]; [injection H as <- <-; cbn; repeat (split; [auto; congruence|]); left; reflexivity|].
    destruct (Z.eqb_spec p1 3) as [->|N3]; [injection H as <- <-; cbn; repeat (split; [auto; congruence|]); left; reflexivity|].
    assert (P : match p1 with 3 => Some 1 | _ => None end = None) by (destruct p1 as [|[p|[p|p|]|]|]; try reflexivity; destruct p; try reflexivity; congruence).
    rewrite P. injection H as <- <-; cbn; repeat (split; [auto; congruence|]); left; reflexivity.
  - injection H as <- <-; cbn; repeat (split; [auto; congruence|]); left; reflexivity.
Qed.
Lemma run_spec key h : Forall req_ok h -> forall d d', List.length (d_ukm d) = 32%nat -> run key d h = Some d' ->
  List.length (d_ukm d') = 32%nat /\ used_ukm d' = last_some sets_ukm h (used_ukm d) /\ (0 <= d_ukm_size d <= 32 -> 0 <= d_ukm_size d' <= 32) /\
  d_param d' = last_some sets_param h (d_param d) /\ d_vko d' = last_some sets_vko h (d_vko d) /\
  d_cipher d' = last_some sets_cipher h (d_cipher d) /\ d_peer_used d' = last_some sets_peer h (d_peer_used d) /\
  (d_md d' = d_md d \/ exists md k, In (R_md (Some md)) h /\ key = Some k /\ digest_of_type md (k_alg k) /\ d_md d' = Some md).
Proof.
  induction 1 as [|q h Q F IH]; intros d d' L R.
  - injection R as <-. cbn. repeat (split; [auto|]). left. reflexivity.
  - cbn [run] in R. destruct (pkey_gost_ctrl key d q) as [r d1|] eqn:E; [|discriminate R].
    destruct (step_spec key d q r d1 Q L E) as (S1 & S2 & S3 & S3' & S4 & S5 & S6 & S7 & S8).
    destruct (IH d1 d' S1 R) as (I1 & I2 & I3 & I4 & I5 & I6 & I7 & I8). cbn [last_some fold_left]. unfold last_some in *.
    rewrite <- S2, <- S4, <- S5, <- S6, <- S7. split; [exact I1|]. split; [exact I2|]. split.
    { intros B. apply I3. destruct (sets_ukm q) eqn:U; [apply (S3' _ eq_refl)|rewrite S3; auto]. }
    repeat (split; [assumption|]). destruct I8 as [I8|(md & k & A & B)].
    + rewrite I8. destruct S8 as [S8|(md & k & A & B & C & D)]; [left; exact S8|]. right. exists md, k. split; [left; exact A|auto].
    + right. exists md, k. split; [right; exact A|exact B].
Qed.
(** After any history: the user keying material is the last one accepted (0 to 32 bytes), so are the parameter set, the VKO
    digest and the cipher (reduced to the plain counter mode), the peer key mark is set exactly if it was set, and the
    digest - if there is one - is one that was asked for and fits the key. *)
Theorem C46_context_is_last_accepted :
  forall key h d0 d, pkey_gost_init key = Some d0 -> Forall req_ok h -> run key d0 h = Some d ->
    used_ukm d = last_some sets_ukm h nil /\ 0 <= d_ukm_size d <= 32 /\
    d_param d = last_some sets_param h (match key with Some k => if k_has_data k then k_group k else None | None => None end) /\
    d_vko d = last_some sets_vko h Vko_0 /\ d_vko d <> Vko_other /\
    d_cipher d = last_some sets_cipher h C_undef /\
    d_peer_used d = last_some sets_peer h 0 /\
    (forall md, d_md d = Some md -> In (R_md (Some md)) h /\ exists k, key = Some k /\ digest_of_type md (k_alg k)).
Proof.
  intros key h d0 d I F R.
  assert (D0 : d_ukm d0 = zeros 32 /\ d_ukm_size d0 = 0 /\ d_vko d0 = Vko_0 /\ d_cipher d0 = C_undef /\ d_peer_used d0 = 0 /\ d_md d0 = None /\
    d_param d0 = match key with Some k => if k_has_data k then k_group k else None | None => None end).
  { unfold pkey_gost_init in I. destruct key as [k|]; [|injection I as <-; repeat split]. destruct (k_has_data k); [|injection I as <-; repeat split].
    destruct (k_alg k), (k_group k); try discriminate I; injection I as <-; repeat split. }
  destruct D0 as (E1 & E2 & E3 & E4 & E5 & E6 & E7).
  destruct (run_spec key h F d0 d) as (_ & S2 & S3 & S4 & S5 & S6 & S7 & S8); [rewrite E1; reflexivity|exact R|].
  unfold used_ukm in S2 at 2. rewrite E2 in S2. cbn [firstn Z.to_nat] in S2. rewrite E3 in S5. rewrite E4 in S6. rewrite E5 in S7. rewrite E7 in S4.
  split; [exact S2|]. split; [apply S3; lia|]. split; [exact S4|]. split; [exact S5|]. split.
  { rewrite S5. clear. unfold last_some. assert (G : forall v, v <> Vko_other -> fold_left (fun acc x => match sets_vko x with Some y => y | None => acc end) h v <> Vko_other).
    { induction h as [|q h IH]; intros v Hv; [exact Hv|]. cbn [fold_left]. apply IH. destruct q as [| | | | |v'| | |]; cbn; auto. destruct v'; cbn; congruence. }
    apply G. congruence. }
  split; [exact S6|]. split; [exact S7|]. intros md E. rewrite E6, E in S8. destruct S8 as [S8|(md' & k & A & B & C & D)]; [discriminate S8|].
  injection D as <-. split; [exact A|]. exists k. auto.
Qed.
Print Assumptions C46_context_is_last_accepted.
(** The process ends only for a digest request without a digest. *)
Theorem C46_dies_only_for_null_digest : forall key d q, pkey_gost_ctrl key d q = Dead <-> q = R_md None.
Proof.
  intros key d q. destruct q as [[md|]| | |p|p1 p2|v|c|p1|]; cbn [pkey_gost_ctrl]; try (split; congruence).
  - destruct (md_fits md key); split; congruence.
  - destruct (to_size p1 >? 32); [split; congruence|]. destruct p2; split; congruence.
  - destruct v; split; congruence.
  - destruct (_ || _); [split; congruence|]. destruct (p1 =? 2); [split; congruence|]. destruct (p1 =? 3); split; congruence.
Qed.

(** ** String calls *)
Lemma hexval_text (x : N) : (x < 16)%N -> hexval (nth (N.to_nat x) lower_hex 0%N) = Some x.
Proof.
  intros H. rewrite <- (N2Nat.id x) at 2. assert (K : (N.to_nat x < 16)%nat) by lia. generalize dependent (N.to_nat x). clear.
  intros n K. do 16 (destruct n as [|n]; [reflexivity|]). lia.
Qed.
Lemma text_not_colon (x : N) : (x < 16)%N -> (nth (N.to_nat x) lower_hex 0%N =? 58)%N = false.
Proof.
  intros H. assert (K : (N.to_nat x < 16)%nat) by lia. generalize dependent (N.to_nat x). clear.
  intros n K. do 16 (destruct n as [|n]; [reflexivity|]). lia.
Qed.
Lemma hexpairs_text l : bytes l -> hexpairs (hex_text l) = Some l.
Proof.
  intros B. induction B as [|b l Hb B IH]; [reflexivity|]. unfold hex_text, isbyte in *. cbn [flat_map app hexpairs].
  assert (X : (b / 16 < 16)%N) by (apply N.div_lt_upper_bound; lia). assert (Y : (b mod 16 < 16)%N) by (apply N.mod_lt; lia).
  rewrite (text_not_colon _ X), (hexval_text _ X), (hexval_text _ Y), IH. do 2 f_equal.
  symmetry. apply N.div_mod. lia.
Qed.
Lemma hexstr2buf_text l : bytes l -> l <> nil -> hexstr2buf (hex_text l) = Some l.
Proof.
  intros B E. unfold hexstr2buf. rewrite hex_text_length. destruct (Nat.leb_spec (2 * List.length l) 1) as [H|_].
  - destruct l; [congruence|cbn in H; lia].
  - apply hexpairs_text, B.
Qed.
(** "ukmhex": exactly the bytes written in hexadecimal become the user keying material; more than 32 are refused.  (Same for
    both families of methods.) *)
Theorem C46_ukmhex :
  forall txt2nid key d u, bytes u -> u <> nil -> List.length (d_ukm d) = 32%nat ->
    (List.length u <= 32 -> exists d', ctrl_str_256 txt2nid key d "ukmhex" (Some (hex_text u)) = Ret 1 d' /\
        ctrl_str_512 txt2nid key d "ukmhex" (Some (hex_text u)) = Ret 1 d' /\ used_ukm d' = u /\
        d' = with_ukm d (d_ukm d') (Z.of_nat (List.length u)))%nat /\
    (32 < List.length u -> ctrl_str_256 txt2nid key d "ukmhex" (Some (hex_text u)) = Ret 0 d /\
        ctrl_str_512 txt2nid key d "ukmhex" (Some (hex_text u)) = Ret 0 d)%nat.
Proof.
  intros tx key d u B E L. change (ctrl_str_256 tx key d "ukmhex") with (ctrl_str_common key d "ukmhex").
  change (ctrl_str_512 tx key d "ukmhex") with (ctrl_str_common key d "ukmhex").
  unfold ctrl_str_common. cbn [String.eqb Ascii.eqb Bool.eqb]. rewrite (hexstr2buf_text u B E). split; intros H.
  - replace (32 <? List.length u)%nat with false by (symmetry; apply Nat.ltb_ge; exact H). cbn [pkey_gost_ctrl].
    rewrite to_size_gt by lia. rewrite (proj2 (Z.leb_le _ _)), (proj2 (Z.leb_le _ _)) by lia. cbn [andb negb].
    rewrite Nat2Z.id, firstn_all. eexists. split; [reflexivity|]. split; [reflexivity|]. unfold used_ukm. cbn [with_ukm d_ukm d_ukm_size].
    split; [|reflexivity]. rewrite Nat2Z.id. apply overwrite0. lia.
  - replace (32 <? List.length u)%nat with true by (symmetry; apply Nat.ltb_lt; exact H). split; reflexivity.
Qed.
Print Assumptions C46_ukmhex.

(** Characters of a string. *)
Definition chars (s : string) : list N := List.map Ascii.N_of_ascii (list_ascii_of_string s).
(** "vko": "256", "512" and "0" choose the digest... *)
Theorem C46_vko_strings :
  forall txt2nid key d,
    ctrl_str_256 txt2nid key d "vko" (Some (chars "256")) = Ret 1 (with_vko d Vko_256) /\
    ctrl_str_256 txt2nid key d "vko" (Some (chars "512")) = Ret 1 (with_vko d Vko_512) /\
    ctrl_str_256 txt2nid key d "vko" (Some (chars "0")) = Ret 1 (with_vko d Vko_0) /\
    ctrl_str_256 txt2nid key d "vko" (Some (chars "384")) = Ret 0 d /\
    (forall v, ctrl_str_512 txt2nid key d "vko" v = ctrl_str_256 txt2nid key d "vko" v).
Proof. intros. repeat (split; [reflexivity|]). reflexivity. Qed.
(** ... but so do texts that are no numbers at all (they select the key exchange of RFC 9189, as "0" does) and numbers that
    are far out of range. *)
Theorem C46_vko_strings_refuted :
  forall txt2nid key d,
    ctrl_str_256 txt2nid key d "vko" (Some (chars "sha256")) = Ret 1 (with_vko d Vko_0) /\
    ctrl_str_256 txt2nid key d "vko" (Some nil) = Ret 1 (with_vko d Vko_0) /\
    ctrl_str_256 txt2nid key d "vko" (Some (chars "4294967552 bits")) = Ret 1 (with_vko d Vko_256).
Proof. intros. repeat (split; [reflexivity|]). reflexivity. Qed.
Print Assumptions C46_vko_strings_refuted.

(** ** Parameter sets by name *)
(** The short names of the documentation (README.gost), in either case. *)
Definition short_256 : list (string * curve_nid) :=
  [("A", CryptoPro_A); ("B", CryptoPro_B); ("C", CryptoPro_C); ("0", TestParamSet); ("XA", CryptoPro_XchA); ("XB", CryptoPro_XchB);
   ("TCA", Tc256_A); ("TCB", Tc256_B); ("TCC", Tc256_C); ("TCD", Tc256_D)]%string.
Definition short_512 : list (string * curve_nid) := [("A", Tc512_A); ("B", Tc512_B); ("C", Tc512_C)]%string.
Definition upper (v : list N) : list N := List.map toupper v.
Definition called_so (t : list (string * curve_nid)) (v : list N) (n : curve_nid) : Prop := exists s, In (s, n) t /\ upper v = chars s.
(** Texts that are read as short names and nothing else. *)
Definition short_only_256 (v : list N) : Prop :=
  List.length v = 1%nat \/ (List.length v = 2%nat /\ firstn 1 (upper v) = chars "X") \/ (List.length v = 3%nat /\ firstn 2 (upper v) = chars "TC").
(** Sets that can be given by a registered name. *)
Definition long_256 : list curve_nid := [TestParamSet; CryptoPro_A; CryptoPro_B; CryptoPro_C; CryptoPro_XchA; CryptoPro_XchB; Tc256_A].
Definition long_512 : list curve_nid := [Tc512_A; Tc512_B; Tc512_C; Tc512_Test].
Lemma in_table_256 n : in_table R3410_2001_paramset n = true <-> In n long_256.
Proof. destruct n; cbn; split; intros H; try reflexivity; try discriminate H; try tauto; repeat (destruct H as [H|H]; [discriminate H|]); destruct H. Qed.
Lemma in_table_512 n : in_table R3410_2012_512_paramset n = true <-> In n long_512.
Proof. destruct n; cbn; split; intros H; try reflexivity; try discriminate H; try tauto; repeat (destruct H as [H|H]; [discriminate H|]); destruct H. Qed.


(** The meaning of the value of "paramset". *)
Definition means_256 (txt2nid : list N -> option curve_nid) (v : list N) (n : curve_nid) : Prop :=
  called_so short_256 v n \/ (~ short_only_256 v /\ txt2nid v = Some n /\ In n long_256).
Definition means_512 (txt2nid : list N -> option curve_nid) (v : list N) (n : curve_nid) : Prop :=
  called_so short_512 v n \/ (List.length v <> 1%nat /\ txt2nid v = Some n /\ In n long_512).
Ltac table_in H E := repeat (destruct H as [H|H]; [injection H as <- <-; cbn in E; try discriminate E; injection E; intros; subst; auto 8|]); try destruct H.
Lemma match1 {A} (x : N) (a b c z e : A) :
  match x with 65%N => a | 66%N => b | 67%N => c | 48%N => z | _ => e end =
  if (x =? 65)%N then a else if (x =? 66)%N then b else if (x =? 67)%N then c else if (x =? 48)%N then z else e.
Proof. destruct x as [|p]; [reflexivity|]. do 7 (destruct p as [p|p|]; try reflexivity). Qed.
Lemma match2 {A} (x : N) (a b e : A) :
  match x with 65%N => a | 66%N => b | _ => e end = if (x =? 65)%N then a else if (x =? 66)%N then b else e.
Proof. destruct x as [|p]; [reflexivity|]. do 7 (destruct p as [p|p|]; try reflexivity). Qed.
Lemma match3 {A} (x : N) (a b c e : A) :
  match x with 65%N => a | 66%N => b | 67%N => c | _ => e end =
  if (x =? 65)%N then a else if (x =? 66)%N then b else if (x =? 67)%N then c else e.
Proof. destruct x as [|p]; [reflexivity|]. do 7 (destruct p as [p|p|]; try reflexivity). Qed.
Lemma match4 {A} (x : N) (a b c z e : A) :
  match x with 65%N => a | 66%N => b | 67%N => c | 68%N => z | _ => e end =
  if (x =? 65)%N then a else if (x =? 66)%N then b else if (x =? 67)%N then c else if (x =? 68)%N then z else e.
Proof. destruct x as [|p]; [reflexivity|]. do 7 (destruct p as [p|p|]; try reflexivity). Qed.
(** Every entry of a table of short names, as a statement on the characters. *)
Lemma called_256 v n : called_so short_256 v n <->
  (exists a, v = [a] /\ ((toupper a = 65%N /\ n = CryptoPro_A) \/ (toupper a = 66%N /\ n = CryptoPro_B) \/ (toupper a = 67%N /\ n = CryptoPro_C) \/ (toupper a = 48%N /\ n = TestParamSet))) \/
  (exists a b, v = [a; b] /\ toupper a = 88%N /\ ((toupper b = 65%N /\ n = CryptoPro_XchA) \/ (toupper b = 66%N /\ n = CryptoPro_XchB))) \/
  (exists a b c, v = [a; b; c] /\ toupper a = 84%N /\ toupper b = 67%N /\ ((toupper c = 65%N /\ n = Tc256_A) \/ (toupper c = 66%N /\ n = Tc256_B) \/ (toupper c = 67%N /\ n = Tc256_C) \/ (toupper c = 68%N /\ n = Tc256_D))).
Proof.
  unfold called_so, upper. split.
  - intros (s & H & E). destruct v as [|a [|b [|c [|e v]]]]; cbn [List.map] in E.
    + cbn in H. repeat (destruct H as [H|H]; [injection H as <- <-; discriminate E|]). destruct H.
    + left. exists a. split; [reflexivity|]. cbn in H. repeat (destruct H as [H|H]; [injection H as <- <-; cbn in E; try discriminate E; injection E as E; auto|]). destruct H.
    + right. left. exists a, b. split; [reflexivity|]. cbn in H. repeat (destruct H as [H|H]; [injection H as <- <-; cbn in E; try discriminate E; injection E as E E2; auto|]). destruct H.
    + right. right. exists a, b, c. split; [reflexivity|]. cbn in H. repeat (destruct H as [H|H]; [injection H as <- <-; cbn in E; try discriminate E; injection E as E E2 E3; auto 8|]). destruct H.
    + cbn in H. repeat (destruct H as [H|H]; [injection H as <- <-; discriminate E|]). destruct H.
  - assert (G : forall l s x, nth_error short_256 x = Some (s, n) -> l = chars s -> exists s, In (s, n) short_256 /\ l = chars s).
    { intros l s x X Y. exists s. split; [exact (nth_error_In _ _ X)|exact Y]. }
    intros [(a & -> & H)|[(a & b & -> & A & H)|(a & b & c & -> & A & B & H)]]; cbn [List.map]; try rewrite A; try rewrite B;
      repeat (destruct H as [H|H]); destruct H as [E ->]; rewrite E.
    + refine (G _ _ 0%nat eq_refl eq_refl). + refine (G _ _ 1%nat eq_refl eq_refl). + refine (G _ _ 2%nat eq_refl eq_refl). + refine (G _ _ 3%nat eq_refl eq_refl).
    + refine (G _ _ 4%nat eq_refl eq_refl). + refine (G _ _ 5%nat eq_refl eq_refl).
    + refine (G _ _ 6%nat eq_refl eq_refl). + refine (G _ _ 7%nat eq_refl eq_refl). + refine (G _ _ 8%nat eq_refl eq_refl). + refine (G _ _ 9%nat eq_refl eq_refl).
Qed.
Lemma called_512 v n : called_so short_512 v n <->
  (exists a, v = [a] /\ ((toupper a = 65%N /\ n = Tc512_A) \/ (toupper a = 66%N /\ n = Tc512_B) \/ (toupper a = 67%N /\ n = Tc512_C))).
Proof.
  unfold called_so, upper. split.
  - intros (s & H & E). destruct v as [|a [|b v]]; cbn [List.map] in E.
    + cbn in H. repeat (destruct H as [H|H]; [injection H as <- <-; discriminate E|]). destruct H.
    + exists a. split; [reflexivity|]. cbn in H. repeat (destruct H as [H|H]; [injection H as <- <-; cbn in E; try discriminate E; injection E as E; auto|]). destruct H.
    + cbn in H. repeat (destruct H as [H|H]; [injection H as <- <-; discriminate E|]). destruct H.
  - assert (G : forall l s x, nth_error short_512 x = Some (s, n) -> l = chars s -> exists s, In (s, n) short_512 /\ l = chars s).
    { intros l s x X Y. exists s. split; [exact (nth_error_In _ _ X)|exact Y]. }
    intros (a & -> & H); cbn [List.map]; repeat (destruct H as [H|H]); destruct H as [E ->]; rewrite E.
    + refine (G _ _ 0%nat eq_refl eq_refl). + refine (G _ _ 1%nat eq_refl eq_refl). + refine (G _ _ 2%nat eq_refl eq_refl).
Qed.
(** "paramset": a value that means a set selects exactly it; any other value is refused and changes nothing. *)
Theorem C46_paramset_by_name_256 :
  forall txt2nid key d v,
    (forall n, means_256 txt2nid v n -> ctrl_str_256 txt2nid key d "paramset" (Some v) = Ret 1 (with_param d (Some n))) /\
    ((forall n, ~ means_256 txt2nid v n) -> ctrl_str_256 txt2nid key d "paramset" (Some v) = Ret 0 d).
Proof.
  intros tx key d v. unfold ctrl_str_256. cbn [String.eqb Ascii.eqb Bool.eqb pkey_gost_ctrl]. cbv zeta.
  set (bn := match tx v with None => Ret 0 d | Some n => if in_table R3410_2001_paramset n then Ret 1 (with_param d (Some n)) else Ret 0 d end).
  assert (B1 : forall n, tx v = Some n -> In n long_256 -> bn = Ret 1 (with_param d (Some n))).
  { intros n T I. unfold bn. rewrite T. apply in_table_256 in I. rewrite I. reflexivity. }
  assert (B2 : (forall n, tx v = Some n -> ~ In n long_256) -> bn = Ret 0 d).
  { intros H. unfold bn. destruct (tx v) as [n|]; [|reflexivity]. destruct (in_table R3410_2001_paramset n) eqn:I; [|reflexivity].
    apply in_table_256 in I. elim (H n eq_refl I). }
  clearbody bn.
  split.
  - intros n [C|(S & T & I)].
    + apply called_256 in C. destruct C as [(a & -> & H)|[(a & b & -> & A & H)|(a & b & c & -> & A & B & H)]]; try rewrite A; try rewrite B; cbn [N.eqb Pos.eqb andb];
      repeat (destruct H as [H|H]); destruct H as [E ->]; rewrite E; reflexivity.
    + destruct v as [|a [|b [|c [|e v]]]]; auto.
      * elim S. left. reflexivity.
      * destruct (N.eqb_spec (toupper a) 88) as [E|E]; auto. elim S. right. left. split; [reflexivity|]. cbn. rewrite E. reflexivity.
      * destruct (N.eqb_spec (toupper a) 84) as [E|E]; cbn [andb]; auto. destruct (N.eqb_spec (toupper b) 67) as [E2|E2]; auto.
        elim S. right. right. split; [reflexivity|]. cbn. rewrite E, E2. reflexivity.
  - intros F.
    assert (F1 : forall n, ~ called_so short_256 v n) by (intros n H; apply (F n); left; exact H).
    assert (F2 : ~ short_only_256 v -> bn = Ret 0 d) by (intros S; apply B2; intros n T I; apply (F n); right; auto).
    destruct v as [|a [|b [|c [|e v]]]].
    + apply F2. intros [H|[[H _]|[H _]]]; discriminate H.
    + rewrite match1. repeat match goal with |- context [(?x =? ?y)%N] => destruct (N.eqb_spec x y) as [E|_]; [exfalso; eapply F1, called_256; left; exists a; split; [reflexivity|eauto 8]|] end.
      reflexivity.
    + destruct (N.eqb_spec (toupper a) 88) as [A|A].
      * rewrite match2. repeat match goal with |- context [(?x =? ?y)%N] => destruct (N.eqb_spec x y) as [E|_]; [exfalso; eapply F1, called_256; right; left; exists a, b; split; [reflexivity|split; [exact A|eauto 8]]|] end.
        reflexivity.
      * apply F2. intros [H|[[_ H]|[H _]]]; [discriminate H| |discriminate H]. injection H as H. contradiction.
    + destruct (N.eqb_spec (toupper a) 84) as [A|A]; cbn [andb]; [destruct (N.eqb_spec (toupper b) 67) as [B|B]|].
      * rewrite match4. repeat match goal with |- context [(?x =? ?y)%N] => destruct (N.eqb_spec x y) as [E|_]; [exfalso; eapply F1, called_256; right; right; exists a, b, c; split; [reflexivity|split; [exact A|split; [exact B|eauto 8]]]|] end.
        reflexivity.
      * apply F2. intros [H|[[H _]|[_ H]]]; [discriminate H|discriminate H|]. injection H as H1 H2. contradiction.
      * apply F2. intros [H|[[H _]|[_ H]]]; [discriminate H|discriminate H|]. injection H as H1 H2. contradiction.
    + apply F2. intros [H|[[H _]|[H _]]]; discriminate H.
Qed.
Theorem C46_paramset_by_name_512 :
  forall txt2nid key d v,
    (forall n, means_512 txt2nid v n -> ctrl_str_512 txt2nid key d "paramset" (Some v) = Ret 1 (with_param d (Some n))) /\
    ((forall n, ~ means_512 txt2nid v n) -> ctrl_str_512 txt2nid key d "paramset" (Some v) = Ret 0 d).
Proof.
  intros tx key d v. unfold ctrl_str_512. cbn [String.eqb Ascii.eqb Bool.eqb pkey_gost_ctrl negb]. cbv zeta.
  set (bn := match tx v with None => Ret 0 d | Some n => if in_table R3410_2012_512_paramset n then Ret 1 (with_param d (Some n)) else Ret 0 d end).
  assert (B1 : forall n, tx v = Some n -> In n long_512 -> bn = Ret 1 (with_param d (Some n))).
  { intros n T I. unfold bn. rewrite T. apply in_table_512 in I. rewrite I. reflexivity. }
  assert (B2 : (forall n, tx v = Some n -> ~ In n long_512) -> bn = Ret 0 d).
  { intros H. unfold bn. destruct (tx v) as [n|]; [|reflexivity]. destruct (in_table R3410_2012_512_paramset n) eqn:I; [|reflexivity].
    apply in_table_512 in I. elim (H n eq_refl I). }
  clearbody bn.
  split.
  - intros n [C|(S & T & I)].
    + apply called_512 in C. destruct C as (a & -> & H). repeat (destruct H as [H|H]); destruct H as [E ->]; rewrite E; reflexivity.
    + destruct v as [|a [|b v]]; auto. elim S. reflexivity.
  - intros F.
    assert (F1 : forall n, ~ called_so short_512 v n) by (intros n H; apply (F n); left; exact H).
    assert (F2 : List.length v <> 1%nat -> bn = Ret 0 d) by (intros S; apply B2; intros n T I; apply (F n); right; auto).
    destruct v as [|a [|b v]].
    + apply F2. cbn. congruence.
    + rewrite match3. repeat match goal with |- context [(?x =? ?y)%N] => destruct (N.eqb_spec x y) as [E|_]; [exfalso; eapply F1, called_512; exists a; split; [reflexivity|eauto 8]|] end.
      reflexivity.
    + apply F2. cbn. congruence.
Qed.
(** Three of the sets have short names only: their registered names and object identifiers are refused. *)
Theorem C46_registered_names_refuted :
  forall txt2nid key d v n, In n [Tc256_B; Tc256_C; Tc256_D] -> (3 < List.length v)%nat -> txt2nid v = Some n ->
    ctrl_str_256 txt2nid key d "paramset" (Some v) = Ret 0 d.
Proof.
  intros tx key d v n I L T. apply C46_paramset_by_name_256. intros m [C|(S & T' & J)].
  - apply called_256 in C. destruct C as [(a & -> & _)|[(a & b & -> & _)|(a & b & c & -> & _)]]; cbn in L; lia.
  - rewrite T in T'. injection T' as <-. cbn in I, J. destruct I as [<-|[<-|[<-|[]]]]; repeat (destruct J as [J|J]; [discriminate J|]); destruct J.
Qed.
(** Parameter generation after an accepted name: a key of the method's type on the standard curve of that name, whatever
    groups were looked up before. *)
Theorem C46_paramgen_after_name :
  forall txt2nid key d v lookups,
    (forall n d', ctrl_str_256 txt2nid key d "paramset" (Some v) = Ret 1 d' -> means_256 txt2nid v n ->
      exists s, standard n = Some s /\ pkey_gost2001_paramgen (history free_cached_groups lookups) d' = Some (A2001, named n s) /\
                pkey_gost2012_paramgen (history free_cached_groups lookups) d' = Some (A2012_256, named n s)) /\
    (forall n d', ctrl_str_512 txt2nid key d "paramset" (Some v) = Ret 1 d' -> means_512 txt2nid v n ->
      exists s, standard n = Some s /\ pkey_gost2012_paramgen (history free_cached_groups lookups) d' = Some (A2012_512, named n s)).
Proof.
  intros tx key d v l. split; intros n d' E M.
  - assert (W : d' = with_param d (Some n)) by (rewrite (proj1 (C46_paramset_by_name_256 tx key d v) n M) in E; congruence). subst d'.
    assert (I : In n (long_256 ++ [Tc256_B; Tc256_C; Tc256_D])).
    { destruct M as [C|(_ & _ & I)]; [|apply in_or_app; left; exact I]. apply called_256 in C.
      destruct C as [(a & _ & H)|[(a & b & _ & _ & H)|(a & b & c & _ & _ & _ & H)]]; repeat (destruct H as [H|H]); destruct H as [_ ->]; cbn; tauto. }
    unfold pkey_gost2001_paramgen, pkey_gost2012_paramgen. cbn [with_param d_param]. rewrite C43_fill_gives_the_standard_set.
    destruct (standard n) as [s|] eqn:S; [|apply C43_known_sets in S; subst n; repeat (destruct I as [I|I]; [discriminate I|]); destruct I].
    exists s. cbn [option_map]. split; [reflexivity|]. split; [reflexivity|]. clear - I. destruct n; try reflexivity; repeat (destruct I as [I|I]; [discriminate I|]); destruct I.
  - assert (W : d' = with_param d (Some n)) by (rewrite (proj1 (C46_paramset_by_name_512 tx key d v) n M) in E; congruence). subst d'.
    assert (I : In n long_512).
    { destruct M as [C|(_ & _ & I)]; [|exact I]. apply called_512 in C. destruct C as (a & _ & H). repeat (destruct H as [H|H]); destruct H as [_ ->]; cbn; tauto. }
    unfold pkey_gost2012_paramgen. cbn [with_param d_param]. rewrite C43_fill_gives_the_standard_set.
    destruct (standard n) as [s|] eqn:S; [|apply C43_known_sets in S; subst n; repeat (destruct I as [I|I]; [discriminate I|]); destruct I].
    exists s. cbn [option_map]. split; [reflexivity|]. clear - I. destruct n; try reflexivity; repeat (destruct I as [I|I]; [discriminate I|]); destruct I.
Qed.
Print Assumptions C46_paramgen_after_name.
Example C46_tcb : forall tx key d, ctrl_str_256 tx key d "paramset" (Some (chars "tcB")) = Ret 1 (with_param d (Some Tc256_B)).
Proof. reflexivity. Qed.

(** The numeric call checks nothing: a GOST R 34.10-2001 key can be made on a 512-bit curve, and the method for 256-bit keys
    makes 512-bit ones. *)
Theorem C46_numeric_paramset_unchecked_refuted :
  forall key d lookups, exists d' tc512_A, standard Tc512_A = Some tc512_A /\
    pkey_gost_ctrl key d (R_paramset (Some Tc512_A)) = Ret 1 d' /\
    pkey_gost2001_paramgen (history free_cached_groups lookups) d' = Some (A2001, named Tc512_A tc512_A) /\
    pkey_gost2012_paramgen (history free_cached_groups lookups) d' = Some (A2012_512, named Tc512_A tc512_A).
Proof.
  intros key d l. exists (with_param d (Some Tc512_A)). eexists. split; [reflexivity|]. split; [reflexivity|].
  unfold pkey_gost2001_paramgen, pkey_gost2012_paramgen. cbn [with_param d_param]. rewrite C43_fill_gives_the_standard_set. split; reflexivity.
Qed.

(** * MAC contexts *)
Inductive mac_call :=
  | By_number (q : mac_req)
  | By_name (type : string) (value : list N).
(** The three families: GOST 28147-89 ([None]) and the OMACs with their largest tag. *)
Inductive family := F89 | FMagma | FKuz.
Definition max_size (f : family) : Z := match f with F89 | FMagma => 8 | FKuz => 16 end.
Definition default_size (f : family) : Z := match f with F89 => 4 | FMagma => 8 | FKuz => 16 end.
Definition mac_step (f : family) (tp : list N -> option param_set) (d : mdata) (q : mac_call) : Z * mdata :=
  match f, q with
  | F89, By_number q => pkey_gost_mac_ctrl d q
  | F89, By_name t v => pkey_gost_mac_ctrl_str tp d t v
  | FMagma, By_number q => pkey_gost_omac_ctrl 8 d q
  | FMagma, By_name t v => magma_mac_ctrl_str d t v
  | FKuz, By_number q => pkey_gost_omac_ctrl 16 d q
  | FKuz, By_name t v => grasshopper_mac_ctrl_str d t v
  end.
Definition mac_run f tp (d : mdata) (h : list mac_call) : mdata := fold_left (fun d q => snd (mac_step f tp d q)) h d.
(** Buffers are as long as announced, numbers are C ints. *)
Definition call_ok (q : mac_call) : Prop :=
  match q with By_number (Q_set_key n k) => n <= Z.of_nat (List.length k) | By_number (Q_mac_len n) => - 2 ^ 31 <= n < 2 ^ 31 | _ => True end.
Lemma to_int_range z : - 2 ^ 31 <= to_int z < 2 ^ 31.
Proof. unfold to_int. pose proof (Z.mod_pos_bound (z + 2 ^ 31) (2 ^ 32)). lia. Qed.
Lemma omac_len_check max p : 8 <= max <= 16 -> - 2 ^ 31 <= p < 2 ^ 31 -> (p <? 1) || (to_size p >? max) = (p <? 1) || (max <? p).
Proof.
  intros M R. unfold to_size. rewrite Z.gtb_ltb. destruct (Z.ltb_spec p 1); [reflexivity|]. cbn [orb]. rewrite Z.mod_small by lia. reflexivity.
Qed.
(** What one call can do: nothing, or one of these four. *)
Inductive effect := E_none | E_md (m : md_nid) | E_key (k : list N) | E_param (p : param_set) | E_size (n : Z).
Definition apply_effect (d : mdata) (e : effect) : mdata :=
  match e with E_none => d | E_md m => a_with_md d m | E_key k => a_with_key d k | E_param p => a_with_param d p | E_size n => a_with_size d n end.
Definition effect_ok (f : family) (e : effect) : Prop :=
  match e with E_key k => List.length k = 32%nat | E_size n => 1 <= n <= max_size f | _ => True end.
Lemma mac_ctrl_effect d q : call_ok (By_number q) -> exists r e, pkey_gost_mac_ctrl d q = (r, apply_effect d e) /\ effect_ok F89 e /\ (r <= 0 -> e = E_none).
Proof.
  intros C. destruct q as [md| | |n k|p|n|]; cbn [pkey_gost_mac_ctrl].
  - destruct md; try (exists 0, E_none; split; [reflexivity|split; [exact I|auto]]).
    all: eexists 1, (E_md _); split; [reflexivity|split; [exact I|lia]].
  - exists 1, E_none. split; [reflexivity|split; [exact I|lia]].
  - exists 1, E_none. split; [reflexivity|split; [exact I|lia]].
  - destruct (Z.eqb_spec n 32) as [->|]; cbn [negb].
    + exists 1, (E_key (firstn 32 k)). split; [reflexivity|]. split; [|lia]. cbn [effect_ok call_ok] in *. rewrite firstn_length. lia.
    + exists 0, E_none. split; [reflexivity|split; [exact I|auto]].
  - exists 1, (E_param p). split; [reflexivity|split; [exact I|lia]].
  - rewrite Z.gtb_ltb. destruct (Z.ltb_spec n 1), (Z.ltb_spec 8 n); cbn [orb]; try (exists 0, E_none; split; [reflexivity|split; [exact I|auto]]).
    exists 1, (E_size n). split; [reflexivity|split; [cbn; lia|lia]].
  - exists (-2), E_none. split; [reflexivity|split; [exact I|auto]].
Qed.
Lemma omac_ctrl_effect max f d q : 8 <= max <= max_size f -> call_ok (By_number q) ->
  exists r e, pkey_gost_omac_ctrl max d q = (r, apply_effect d e) /\ effect_ok f e /\ (r <= 0 -> e = E_none) /\ (forall p, e <> E_param p).
Proof.
  intros M C. assert (M2 : 8 <= max <= 16) by (destruct f; cbn in M; lia). destruct q as [md| | |n k|p|n|]; cbn [pkey_gost_omac_ctrl].
  - destruct md; try (exists 0, E_none; split; [reflexivity|split; [exact I|split; [auto|congruence]]]).
    all: eexists 1, (E_md _); split; [reflexivity|split; [exact I|split; [lia|congruence]]].
  - exists 1, E_none. split; [reflexivity|split; [exact I|split; [lia|congruence]]].
  - exists 1, E_none. split; [reflexivity|split; [exact I|split; [lia|congruence]]].
  - destruct (Z.eqb_spec n 32) as [->|]; cbn [negb].
    + exists 1, (E_key (firstn 32 k)). split; [reflexivity|]. split; [|split; [lia|congruence]]. cbn [effect_ok call_ok] in *. rewrite firstn_length. lia.
    + exists 0, E_none. split; [reflexivity|split; [exact I|split; [auto|congruence]]].
  - exists (-2), E_none. split; [reflexivity|split; [exact I|split; [auto|congruence]]].
  - cbn in C. rewrite omac_len_check by assumption. destruct (Z.ltb_spec n 1), (Z.ltb_spec max n); cbn [orb]; try (exists 0, E_none; split; [reflexivity|split; [exact I|split; [auto|congruence]]]).
    exists 1, (E_size n). split; [reflexivity|split; [cbn; lia|split; [lia|congruence]]].
  - exists (-2), E_none. split; [reflexivity|split; [exact I|split; [auto|congruence]]].
Qed.
Lemma str_key_effect f d t v o : mac_ctrl_str_key d t v = Some o -> exists r e, o = (r, apply_effect d e) /\ effect_ok f e /\ (r <= 0 -> e = E_none) /\ (forall p, e <> E_param p).
Proof.
  unfold mac_ctrl_str_key. intros H.
  assert (N0 : exists r e, (0, d) = (r, apply_effect d e) /\ effect_ok f e /\ (r <= 0 -> e = E_none) /\ (forall p, e <> E_param p))
    by (exists 0, E_none; split; [reflexivity|split; [exact I|split; [auto|congruence]]]).
  assert (K : forall k, List.length k = 32%nat -> exists r e, pkey_gost_mac_ctrl d (Q_set_key 32 k) = (r, apply_effect d e) /\ effect_ok f e /\ (r <= 0 -> e = E_none) /\ (forall p, e <> E_param p)).
  { intros k L. exists 1, (E_key (firstn 32 k)). split; [reflexivity|]. split; [cbn [effect_ok]; rewrite firstn_length, L; reflexivity|]. split; [lia|congruence]. }
  destruct (String.eqb t "key").
  - injection H as <-. destruct (Nat.eqb_spec (List.length v) 32) as [L|]; cbn [negb]; [apply K, L|exact N0].
  - destruct (String.eqb t "hexkey"); [|discriminate H]. injection H as <-. destruct (hexstr2buf v) as [k|]; [|exact N0].
    destruct (Nat.eqb_spec (List.length k) 32) as [L|]; cbn [negb]; [apply K, L|exact N0].
Qed.
Lemma mac_step_effect f tp d q : call_ok q -> exists r e, mac_step f tp d q = (r, apply_effect d e) /\ effect_ok f e /\ (r <= 0 -> e = E_none) /\
  (f <> F89 -> forall p, e <> E_param p).
Proof.
  intros C.
  assert (N0 : forall r, r <= 0 -> exists r' e, (r, d) = (r', apply_effect d e) /\ effect_ok f e /\ (r' <= 0 -> e = E_none) /\ (f <> F89 -> forall p, e <> E_param p))
    by (intros r R; exists r, E_none; split; [reflexivity|split; [exact I|split; [auto|congruence]]]).
  assert (O : f <> F89 -> forall max t v, 8 <= max <= max_size f -> exists r e, pkey_gost_omac_ctrl_str max d t v = (r, apply_effect d e) /\ effect_ok f e /\ (r <= 0 -> e = E_none) /\ (f <> F89 -> forall p, e <> E_param p)).
  { intros NF max t v M. unfold pkey_gost_omac_ctrl_str. destruct (mac_ctrl_str_key d t v) as [o|] eqn:K.
    - destruct (str_key_effect f d t v o K) as (r & e & E1 & E2 & E3 & E4). exists r, e. auto.
    - destruct (String.eqb t "size"); [|apply N0; lia]. destruct (strtol v) as [z [|x rest]]; [|apply N0; lia].
      destruct (omac_ctrl_effect max f d (Q_mac_len (to_int z)) M (to_int_range z)) as (r & e & E1 & E2 & E3 & E4). exists r, e. auto. }
  destruct f, q as [q|t v]; cbn [mac_step].
  - destruct (mac_ctrl_effect d q C) as (r & e & E1 & E2 & E3). exists r, e. split; [exact E1|]. split; [exact E2|]. split; [exact E3|congruence].
  - unfold pkey_gost_mac_ctrl_str. destruct (mac_ctrl_str_key d t v) as [o|] eqn:K.
    + destruct (str_key_effect F89 d t v o K) as (r & e & E1 & E2 & E3 & E4). exists r, e. auto.
    + destruct (String.eqb t "size").
      * destruct (strtol v) as [z [|x rest]]; [|apply N0; lia].
        destruct (mac_ctrl_effect d (Q_mac_len (to_int z)) (to_int_range z)) as (r & e & E1 & E2 & E3). exists r, e. split; [exact E1|]. split; [exact E2|]. split; [exact E3|congruence].
      * destruct (String.eqb t "paramset"); [|apply N0; lia]. destruct (tp v) as [p|]; [|apply N0; lia].
        exists 1, (E_param p). split; [reflexivity|split; [exact I|split; [lia|congruence]]].
  - destruct (omac_ctrl_effect 8 FMagma d q) as (r & e & E1 & E2 & E3 & E4); [cbn; lia|exact C|]. exists r, e. auto.
  - apply (O ltac:(congruence) 8). cbn. lia.
  - destruct (omac_ctrl_effect 16 FKuz d q) as (r & e & E1 & E2 & E3 & E4); [cbn; lia|exact C|]. exists r, e. auto.
  - apply (O ltac:(congruence) 8). cbn. lia.
Qed.
(** A call that reports failure changes nothing; the size stays within the method's limits; a generated key carries the key
    bytes (32 of them), parameter set and size of the context, and there is one exactly if a key was set. *)
Theorem C46_mac_failed_call_changes_nothing :
  forall f tp d q r d', call_ok q -> mac_step f tp d q = (r, d') -> r <= 0 -> d' = d.
Proof.
  intros f tp d q r d' C H R. destruct (mac_step_effect f tp d q C) as (r0 & e & E & _ & F & _). rewrite E in H. injection H as <- <-. rewrite (F R). reflexivity.
Qed.
Lemma mac_run_inv f tp h : Forall call_ok h -> forall d, 1 <= a_size d <= max_size f -> (a_key_set d = true -> List.length (a_key d) = 32%nat) ->
  1 <= a_size (mac_run f tp d h) <= max_size f /\ (a_key_set (mac_run f tp d h) = true -> List.length (a_key (mac_run f tp d h)) = 32%nat).
Proof.
  induction 1 as [|q h C F IH]; intros d S K; [auto|]. cbn [mac_run fold_left]. apply IH.
  - destruct (mac_step_effect f tp d q C) as (r & e & E & O & _ & _). rewrite E. destruct e; cbn in *; auto.
  - destruct (mac_step_effect f tp d q C) as (r & e & E & O & _ & _). rewrite E. destruct e; cbn in *; auto.
Qed.
Theorem C46_mac_size_and_keygen :
  forall f tp h, Forall call_ok h ->
    let d := mac_run f tp (pkey_mac_init (default_size f) None) h in
    1 <= a_size d <= max_size f /\
    (mac_keygen d <> None <-> a_key_set d = true) /\
    (forall k, mac_keygen d = Some k -> List.length (mk_key k) = 32%nat /\ mk_key k = a_key d /\ mk_param k = a_param d /\ mk_size k = a_size d).
Proof.
  intros f tp h F d. destruct (mac_run_inv f tp h F (pkey_mac_init (default_size f) None)) as [S K]; [destruct f; cbn; lia|discriminate|].
  fold d in S, K. split; [exact S|]. unfold mac_keygen. destruct (a_key_set d); [|split; [split; congruence|congruence]].
  split; [split; congruence|]. intros k E. assert (E' : k = mk_mac_key (a_param d) (firstn 32 (a_key d)) (a_size d)) by congruence. rewrite E'. cbn [mk_key mk_param mk_size]. specialize (K eq_refl). rewrite firstn_all2 by lia. auto.
Qed.
(** A key is set exactly if some call set one, and it is the last one set. *)
Definition sets_key (q : mac_call) : option (list N) :=
  match q with
  | By_number (Q_set_key 32 k) => Some (firstn 32 k)
  | By_name "key" v => if Nat.eqb (List.length v) 32 then Some v else None
  | By_name "hexkey" v => match hexstr2buf v with Some k => if Nat.eqb (List.length k) 32 then Some k else None | None => None end
  | _ => None
  end.
Lemma some_inj {A} (x y : A) : Some x = Some y -> x = y. Proof. congruence. Qed.
Lemma mac_step_key f tp d q : (a_key_set (snd (mac_step f tp d q)), a_key (snd (mac_step f tp d q))) =
  match sets_key q with Some k => (true, k) | None => (a_key_set d, a_key d) end.
Proof.
  assert (K : forall t v o, mac_ctrl_str_key d t v = Some o -> (a_key_set (snd o), a_key (snd o)) = match sets_key (By_name t v) with Some k => (true, k) | None => (a_key_set d, a_key d) end).
  { intros t v o. unfold mac_ctrl_str_key. destruct (String.eqb_spec t "key") as [->|N1].
    - intros E. apply some_inj in E. subst o. cbn [sets_key]. destruct (Nat.eqb_spec (List.length v) 32) as [L|]; [|reflexivity]. cbn [negb pkey_gost_mac_ctrl Z.eqb Pos.eqb snd a_with_key a_key_set a_key].
      rewrite firstn_all2 by lia. reflexivity.
    - destruct (String.eqb_spec t "hexkey") as [->|N2]; [|discriminate]. intros E. apply some_inj in E. subst o. cbn [sets_key]. destruct (hexstr2buf v) as [k|]; [|reflexivity].
      destruct (Nat.eqb_spec (List.length k) 32) as [L|]; [|reflexivity]. cbn [negb pkey_gost_mac_ctrl Z.eqb Pos.eqb snd a_with_key a_key_set a_key].
      rewrite firstn_all2 by lia. reflexivity. }
  assert (K0 : forall t v, mac_ctrl_str_key d t v = None -> sets_key (By_name t v) = None).
  { intros t v. unfold mac_ctrl_str_key. destruct (String.eqb_spec t "key") as [->|N1]; [discriminate|]. destruct (String.eqb_spec t "hexkey") as [->|N2]; [discriminate|].
    intros _. cbn [sets_key].
    repeat match goal with |- match ?t with _ => _ end = None => destruct t; try reflexivity; try congruence end. }
  assert (Q : forall q, (a_key_set (snd (pkey_gost_mac_ctrl d q)), a_key (snd (pkey_gost_mac_ctrl d q))) = match sets_key (By_number q) with Some k => (true, k) | None => (a_key_set d, a_key d) end).
  { intros [md| | |n k|p|n|]; cbn [pkey_gost_mac_ctrl]; try reflexivity.
    - destruct md; reflexivity.
    - destruct (Z.eqb_spec n 32) as [->|N]; [reflexivity|]. cbn [negb snd sets_key]. destruct n as [|p|p]; try reflexivity. do 6 (destruct p as [p|p|]; try reflexivity). congruence.
    - destruct (_ || _); reflexivity. }
  assert (Q2 : forall max q, (a_key_set (snd (pkey_gost_omac_ctrl max d q)), a_key (snd (pkey_gost_omac_ctrl max d q))) = match sets_key (By_number q) with Some k => (true, k) | None => (a_key_set d, a_key d) end).
  { intros max [md| | |n k|p|n|]; cbn [pkey_gost_omac_ctrl]; try reflexivity.
    - destruct md; reflexivity.
    - destruct (Z.eqb_spec n 32) as [->|N]; [reflexivity|]. cbn [negb snd sets_key]. destruct n as [|p|p]; try reflexivity. do 6 (destruct p as [p|p|]; try reflexivity). congruence.
    - destruct (_ || _); reflexivity. }
  assert (O : forall max t v, (a_key_set (snd (pkey_gost_omac_ctrl_str max d t v)), a_key (snd (pkey_gost_omac_ctrl_str max d t v))) = match sets_key (By_name t v) with Some k => (true, k) | None => (a_key_set d, a_key d) end).
  { intros max t v. unfold pkey_gost_omac_ctrl_str. destruct (mac_ctrl_str_key d t v) as [o|] eqn:E; [apply K, E|]. rewrite (K0 _ _ E).
    destruct (String.eqb t "size"); [|reflexivity]. destruct (strtol v) as [z [|x rest]]; [|reflexivity]. exact (Q2 max (Q_mac_len (to_int z))). }
  destruct f, q as [q|t v]; cbn [mac_step]; try apply Q; try apply Q2; try apply O.
  unfold pkey_gost_mac_ctrl_str. destruct (mac_ctrl_str_key d t v) as [o|] eqn:E; [apply K, E|]. rewrite (K0 _ _ E).
  destruct (String.eqb t "size").
  - destruct (strtol v) as [z [|x rest]]; [|reflexivity]. exact (Q (Q_mac_len (to_int z))).
  - destruct (String.eqb t "paramset"); [|reflexivity]. destruct (tp v); reflexivity.
Qed.
Theorem C46_mac_key_is_last_accepted :
  forall f tp h d,
    let d' := mac_run f tp d h in
    a_key d' = last_some sets_key h (a_key d) /\
    (a_key_set d' = true <-> a_key_set d = true \/ exists q k, In q h /\ sets_key q = Some k).
Proof.
  intros f tp h. induction h as [|q h IH]; intros d d'.
  - split; [reflexivity|]. cbn in *. split; [auto|]. intros [H|(q & k & [] & _)]; exact H.
  - specialize (IH (snd (mac_step f tp d q))). cbv zeta in IH. subst d'. cbn [mac_run fold_left last_some] in *. unfold mac_run, last_some in *.
    pose proof (mac_step_key f tp d q) as S. destruct IH as [I1 I2]. split.
    + rewrite I1. destruct (sets_key q) as [k|]; injection S as _ ->; reflexivity.
    + rewrite I2. destruct (sets_key q) as [k|] eqn:E; injection S as -> _; split.
      * intros _. right. exists q, k. split; [left; reflexivity|exact E].
      * auto.
      * intros [H|(q' & k & H & K)]; [auto|]. right. exists q', k. split; [right; exact H|exact K].
      * intros [H|(q' & k & [<-|H] & K)]; [auto|congruence|]. right. eauto.
Qed.
Print Assumptions C46_mac_key_is_last_accepted.

(** ** Signing with a generated MAC key *)
(** The S-box of a key: its parameter set's, else the digest's default. *)
Definition key_sbox (dflt : subst_block) (k : mac_key) : subst_block := match mk_param k with Some p => sbox_of p | None => dflt end.
Lemma updates_feed chunks : forall c, imit_updates c chunks = imit_feed c chunks.
Proof. induction chunks as [|d t IH]; intros c; [reflexivity|]. cbn [imit_updates imit_feed]. destruct (gost_imit_update c d); [apply IH|reflexivity]. Qed.
Lemma digestinit_core dflt c0 k : subst_ok (key_sbox dflt k) -> bytes (mk_key k) -> rng_ok (g_rng (i_g c0)) -> i_abort c0 = false ->
  exists c, imit_digestinit dflt c0 (Init_struct k) = (1, c) /\ icore (key_sbox dflt k) (mk_key k) c nil /\ i_left c = 0%nat.
Proof.
  intros Hs Hk Hr Ha. unfold imit_digestinit, gost_imit_set_key, gost_imit_init, key_sbox in *. destruct (mk_param k) as [p|]; eexists; (split; [reflexivity|]); (split; [|reflexivity]).
  - constructor; cbn [i_with_key i_g i_buffer i_partial i_count i_mesh i_keyset i_abort]; try reflexivity; [|exact Ha].
    apply kst_gost_key; [exact Hs|apply tables_of_init|exact Hr|exact Hk].
  - constructor; cbn [i_with_key i_g i_buffer i_partial i_count i_mesh i_keyset i_abort]; try reflexivity; [|exact Ha].
    apply kst_gost_key; [exact Hs|apply tables_of_init|exact Hr|exact Hk].
Qed.
Lemma raw_core dflt c0 k : subst_ok dflt -> bytes k -> rng_ok (g_rng (i_g c0)) -> i_abort c0 = false ->
  exists c, imit_digestinit dflt c0 (Init_raw k) = (1, c) /\ icore dflt k c nil /\ i_left c = 0%nat.
Proof.
  intros Hs Hk Hr Ha. unfold imit_digestinit, gost_imit_set_key, gost_imit_init. cbn [Z.eqb Pos.eqb]. eexists; (split; [reflexivity|]); (split; [|reflexivity]).
  constructor; cbn [i_with_key i_g i_buffer i_partial i_count i_mesh i_keyset i_abort]; try reflexivity; [|exact Ha].
  apply kst_gost_key; [exact Hs|apply tables_of_init|exact Hr|exact Hk].
Qed.
Lemma mac_mesh_length S mesh k bl : forall i st, List.length st = 8%nat -> List.length (mac_mesh S mesh k i st bl) = 8%nat.
Proof. induction bl as [|b t IH]; intros i st L; [exact L|]. cbn [mac_mesh]. apply IH. unfold rfc5830_mac_step. cbv zeta. destruct (feistel _ _ _ _ _) as [x y]. rewrite app_length, !n2le_length. reflexivity. Qed.
Lemma gost_mac_meshed_length S mesh k m : List.length (gost_mac_meshed S mesh k m) = 8%nat.
Proof. apply mac_mesh_length. reflexivity. Qed.
Lemma signctx_spec sb k c chunks d : icore sb k c nil -> i_left c = 0%nat -> 1 <= a_size d <= 8 -> List.length (concat chunks) <> 8%nat ->
  match imit_updates c chunks with Some c => imit_signctx d c | None => None end =
  Some (firstn (Z.to_nat (a_size d)) (gost_mac_meshed (sboxes_of sb) true k (concat chunks))).
Proof.
  intros C L S H8. rewrite updates_feed. destruct (imit_feed_inv sb k chunks c nil (core_inv sb k c C L)) as (c1 & F & I1 & S1). rewrite F. cbn [app] in I1.
  unfold imit_signctx, gost_imit_xof_len. replace ((a_size d <? 1) || (8 <? a_size d)) with false by (symmetry; apply Bool.orb_false_iff; split; apply Z.ltb_ge; lia).
  assert (I2 : iinv sb k (i_with_size c1 (Z.to_N (a_size d))) (concat chunks)).
  { destruct I1 as (done & rest & E & Lr & K & M & N). exists done, rest. split; [exact E|]. split; [exact Lr|]. split; [|split; [exact M|exact N]].
    destruct K as [G1 G2 G3 G4 G5 G6 G7 G8]; constructor; assumption. }
  destruct (imit_final_spec sb k _ (concat chunks) I2) as (c2 & F2). { intros; contradiction. }
  rewrite F2, get_mac_whole. cbn [i_with_size i_size]. unfold gost_mac_meshed. f_equal. f_equal. lia.
Qed.
(** The key generated from any accepted configuration, used in a new context, gives the MAC of GOST 28147-89 with the S-box
    of the configured parameter set (or the default one), cut to the configured size - for every division of every message
    (other than those of exactly 8 bytes, see C14) into updates.  The announced length is the real one. *)
Theorem C46_mac_key_signs :
  forall dflt c0 tp h k chunks,
    subst_ok dflt -> rng_ok (g_rng (i_g c0)) -> i_abort c0 = false -> Forall call_ok h ->
    mac_keygen (mac_run F89 tp (pkey_mac_init 4 None) h) = Some k -> bytes (mk_key k) -> List.length (concat chunks) <> 8%nat ->
    let d := pkey_mac_init 4 (Some k) in
    imit_sign dflt c0 d (Some k) chunks =
      Some (firstn (Z.to_nat (mk_size k)) (gost_mac_meshed (sboxes_of (key_sbox dflt k)) true (mk_key k) (concat chunks))) /\
    (forall tag, imit_sign dflt c0 d (Some k) chunks = Some tag -> Z.of_nat (List.length tag) = mac_siglen d).
Proof.
  intros dflt c0 tp h k chunks Hs Hr Ha F K B H8 d.
  destruct (C46_mac_size_and_keygen F89 tp h F) as (S & _ & G). cbn [default_size] in *. destruct (G k K) as (G1 & G2 & G3 & G4). cbn [max_size] in S. rewrite <- G4 in S.
  assert (Hs' : subst_ok (key_sbox dflt k)) by (unfold key_sbox; destruct (mk_param k); [apply sbox_ok|exact Hs]).
  destruct (digestinit_core dflt c0 k Hs' B Hr Ha) as (c & E & C & L).
  assert (M : imit_sign dflt c0 d (Some k) chunks = Some (firstn (Z.to_nat (mk_size k)) (gost_mac_meshed (sboxes_of (key_sbox dflt k)) true (mk_key k) (concat chunks)))).
  { unfold imit_sign, mac_digestinit. cbn [d pkey_mac_init a_key_set]. rewrite E. change (1 <=? 0) with false. cbv iota.
    apply (signctx_spec _ _ c chunks d C L); [exact S|exact H8]. }
  split; [exact M|]. intros tag T. rewrite M in T. apply some_inj in T. subst tag. unfold mac_siglen. cbn [d pkey_mac_init a_size].
  rewrite firstn_length, gost_mac_meshed_length. lia.
Qed.

(** A key set in the signing context itself is used with the default S-box: a parameter set given with it is ignored. *)
Theorem C46_raw_key_signs_with_default_sbox_refuted :
  forall dflt c0 d key chunks,
    subst_ok dflt -> rng_ok (g_rng (i_g c0)) -> i_abort c0 = false -> a_key_set d = true -> bytes (a_key d) -> 1 <= a_size d <= 8 ->
    List.length (concat chunks) <> 8%nat ->
    imit_sign dflt c0 d key chunks = Some (firstn (Z.to_nat (a_size d)) (gost_mac_meshed (sboxes_of dflt) true (a_key d) (concat chunks))) /\
    (forall p, imit_sign dflt c0 (a_with_param d p) key chunks = imit_sign dflt c0 d key chunks).
Proof.
  intros dflt c0 d key chunks Hs Hr Ha K B S H8.
  destruct (raw_core dflt c0 (a_key d) Hs B Hr Ha) as (c & E & C & L). split.
  - unfold imit_sign, mac_digestinit. rewrite K, E. change (1 <=? 0) with false. cbv iota. apply (signctx_spec _ _ c chunks d C L S H8).
  - intros p. unfold imit_sign, mac_digestinit. cbn [a_with_param a_key_set a_key]. rewrite K, E. reflexivity.
Qed.
(** Without any key there is no signature. *)
Theorem C46_no_key_no_signature : forall dflt c0 d chunks, a_key_set d = false -> imit_sign dflt c0 d None chunks = None.
Proof. intros dflt c0 d chunks K. unfold imit_sign, mac_digestinit. rewrite K. reflexivity. Qed.
(** Sizes by name: the number is converted to int without a check, and the string interface of the Kuznyechik MAC stops at 8
    although the numeric one goes to 16. *)
Theorem C46_size_by_name_refuted :
  forall tp d,
    pkey_gost_mac_ctrl_str tp d "size" (chars "4294967300") = (1, a_with_size d 4) /\
    magma_mac_ctrl_str d "size" (chars "-4294967288") = (1, a_with_size d 8) /\
    pkey_gost_omac_ctrl 16 d (Q_mac_len 16) = (1, a_with_size d 16) /\
    grasshopper_mac_ctrl_str d "size" (chars "16") = (0, d).
Proof. intros. repeat (split; [reflexivity|]). reflexivity. Qed.
Lemma digits_app s acc r : Forall (fun c => is_digit c = true) s ->
  digits acc (s ++ r) = digits (fold_left (fun a c => 10 * a + (Z.of_N c - 48)) s acc) r.
Proof. intros F. revert acc. induction F as [|c s D F IH]; intros acc; [reflexivity|]. cbn [app digits fold_left]. rewrite D. apply IH. Qed.
(** In range it is exact: a decimal number is accepted iff it is between 1 and 8 (as long as it fits a C int). *)
Definition decimal (s : list N) : Z := fold_left (fun a c => 10 * a + (Z.of_N c - 48)) s 0.
Lemma strtol_decimal s : s <> nil -> Forall (fun c => is_digit c = true) s -> decimal s < 2 ^ 31 -> strtol s = (decimal s, nil).
Proof.
  intros E F B. unfold strtol. destruct s as [|c s]; [congruence|]. inversion F as [|c' s' D F']; subst.
  assert (P : forall s a, Forall (fun c => is_digit c = true) s -> 0 <= a -> 0 <= fold_left (fun a c => 10 * a + (Z.of_N c - 48)) s a).
  { clear. intros s. induction s as [|c s IH]; intros a F A; [exact A|]. inversion F as [|c' s' D F']; subst. cbn [fold_left]. apply IH; [exact F'|].
    unfold is_digit in D. apply andb_prop in D as [D1 D2]. apply N.leb_le in D1. lia. }
  pose proof (P (c :: s) 0 F (Z.le_refl 0)) as P0. fold (decimal (c :: s)) in P0.
  assert (D' := D). unfold is_digit in D'. apply andb_prop in D' as [D1 D2]. apply N.leb_le in D1, D2.
  assert (Sp : is_space c = false).
  { unfold is_space. apply Bool.orb_false_iff. split; [apply N.eqb_neq; lia|]. apply Bool.andb_false_iff. right. apply N.leb_gt. lia. }
  cbn [skip_space]. rewrite Sp.
  assert (M : match c :: s with 45%N :: r => (true, r) | 43%N :: r => (false, r) | _ => (false, c :: s) end = (false, c :: s)).
  { assert (X : exists k, c = (48 + k)%N /\ (k <= 9)%N) by (exists (c - 48)%N; lia). destruct X as (k & -> & K).
    assert (Y : (k = 0 \/ k = 1 \/ k = 2 \/ k = 3 \/ k = 4 \/ k = 5 \/ k = 6 \/ k = 7 \/ k = 8 \/ k = 9)%N) by lia.
    destruct Y as [->|[->|[->|[->|[->|[->|[->|[->|[->| ->]]]]]]]]]; reflexivity. }
  rewrite M. rewrite D. pose proof (digits_app (c :: s) 0 nil F) as G. rewrite app_nil_r in G. rewrite G. cbn [digits]. fold (decimal (c :: s)).
  f_equal. unfold clamp_long. lia.
Qed.
Theorem C46_size_by_name :
  forall tp d s, s <> nil -> Forall (fun c => is_digit c = true) s -> decimal s < 2 ^ 31 ->
    pkey_gost_mac_ctrl_str tp d "size" s = (if (1 <=? decimal s) && (decimal s <=? 8) then (1, a_with_size d (decimal s)) else (0, d)) /\
    magma_mac_ctrl_str d "size" s = pkey_gost_mac_ctrl_str tp d "size" s /\
    grasshopper_mac_ctrl_str d "size" s = pkey_gost_mac_ctrl_str tp d "size" s.
Proof.
  intros tp d s E F B. 
  assert (P : 0 <= decimal s).
  { clear - F. assert (P : forall s a, Forall (fun c => is_digit c = true) s -> 0 <= a -> 0 <= fold_left (fun a c => 10 * a + (Z.of_N c - 48)) s a).
    { clear. intros s. induction s as [|c s IH]; intros a F A; [exact A|]. inversion F as [|c' s' D F']; subst. cbn [fold_left]. apply IH; [exact F'|].
      unfold is_digit in D. apply andb_prop in D as [D1 D2]. apply N.leb_le in D1. lia. }
    apply P; [exact F|lia]. }
  assert (T : to_int (decimal s) = decimal s) by (unfold to_int; rewrite Z.mod_small; lia).
  assert (A : pkey_gost_mac_ctrl_str tp d "size" s = (if (1 <=? decimal s) && (decimal s <=? 8) then (1, a_with_size d (decimal s)) else (0, d))).
  { unfold pkey_gost_mac_ctrl_str. cbn [mac_ctrl_str_key String.eqb Ascii.eqb Bool.eqb]. rewrite strtol_decimal by assumption. rewrite T. cbn [pkey_gost_mac_ctrl].
    rewrite Z.gtb_ltb. destruct (Z.ltb_spec (decimal s) 1), (Z.ltb_spec 8 (decimal s)), (Z.leb_spec 1 (decimal s)), (Z.leb_spec (decimal s) 8); try lia; reflexivity. }
  assert (O : pkey_gost_omac_ctrl_str 8 d "size" s = (if (1 <=? decimal s) && (decimal s <=? 8) then (1, a_with_size d (decimal s)) else (0, d))).
  { unfold pkey_gost_omac_ctrl_str. cbn [mac_ctrl_str_key String.eqb Ascii.eqb Bool.eqb]. rewrite strtol_decimal by assumption. rewrite T. cbn [pkey_gost_omac_ctrl].
    rewrite omac_len_check by lia. destruct (Z.ltb_spec (decimal s) 1), (Z.ltb_spec 8 (decimal s)), (Z.leb_spec 1 (decimal s)), (Z.leb_spec (decimal s) 8); try lia; reflexivity. }
  rewrite A. split; [reflexivity|]. split; exact O.
Qed.
(** A non-trivial instance of the hypotheses of the signing theorem. *)
Example C46_sign_instance :
  let h := [By_name "size" (chars "7"); By_name "key" (chars "0123456789abcdef0123456789abcdef"); By_number (Q_paramset P_C); By_number (Q_mac_len 5); By_number (Q_mac_len 9)] in
  Forall call_ok h /\ exists k, mac_keygen (mac_run F89 (fun _ => None) (pkey_mac_init 4 None) h) = Some k /\ bytes (mk_key k) /\ mk_size k = 5 /\ mk_param k = Some P_C.
Proof.
  split.
  - repeat (apply Forall_cons; [cbn; lia || exact I|]). apply Forall_nil.
  - eexists. split; [reflexivity|]. split; [|split; reflexivity]. cbn. repeat (apply Forall_cons; [reflexivity|]). apply Forall_nil.
Qed.
Print Assumptions C46_mac_key_signs.
Print Assumptions C46_size_by_name.
