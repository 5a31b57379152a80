(** Property C45: the checksum tools gostsum and gost12sum. *)
From Coq Require Import ZArith.
From Verif Require Import Bytes BytesProofs Gost89Model Gost89Sboxes Gost89Spec Gost89SpecProofs BlockLoop Hash94Model Hash94Spec
  Hash94Proofs PropGost89 PropHash94 StreebogModel StreebogSpec StreebogProofs PropStreebog SumModel SumSpec.
Open Scope N_scope.

(** * Text *)
Lemma hexstr_text l : bytes l -> hexstr l = hex_text l.
Proof.
  intros B. unfold hexstr, hex_text. induction B as [|b l Hb B IH]; [reflexivity|]. cbn [flat_map]. rewrite IH. f_equal.
  unfold hex2.
  assert (D : forall d, d < 16 -> hex_digit d = nth (N.to_nat d) lower_hex 0).
  { intros d Hd. assert (G : forallb (fun d => hex_digit d =? nth (N.to_nat d) lower_hex 0) (map N.of_nat (seq 0 16)) = true) by (vm_compute; reflexivity).
    rewrite forallb_forall in G. specialize (G d). apply N.eqb_eq, G. apply in_map_iff. exists (N.to_nat d). split; [apply N2Nat.id|]. apply in_seq. lia. }
  f_equal; [apply D|f_equal; apply D].
  - apply N.div_lt_upper_bound; [lia|]. exact Hb.
  - apply N.mod_lt. lia.
Qed.
Lemma is_hex_char_spec c : is_hex_char c = true <-> hex_char c.
Proof.
  unfold is_hex_char, hex_char. rewrite negb_true_iff, !orb_false_iff, !andb_false_iff, !N.ltb_ge. lia.
Qed.
Lemma hex_text_length l : length (hex_text l) = (2 * length l)%nat.
Proof. induction l; [reflexivity|]. unfold hex_text in *. cbn [flat_map length app]. rewrite IHl. lia. Qed.
Lemma lower_hex_char i : (i < 16)%nat -> hex_char (nth i lower_hex 0) /\ ~ 65 <= nth i lower_hex 0 <= 70.
Proof.
  intros Hi. do 16 (destruct i as [|i]; [cbn; unfold hex_char; lia|]). lia.
Qed.
Lemma hex_text_chars l : bytes l -> Forall (fun c => hex_char c /\ ~ 65 <= c <= 70) (hex_text l).
Proof.
  intros B. unfold hex_text. induction B as [|b l Hb B IH]; [constructor|]. cbn [flat_map app].
  assert (b / 16 < 16) by (apply N.div_lt_upper_bound; [lia|exact Hb]). assert (b mod 16 < 16) by (apply N.mod_lt; lia).
  constructor; [apply lower_hex_char; lia|]. constructor; [apply lower_hex_char; lia|exact IH].
Qed.

Lemma take_line_name lim n rest : (length n < lim)%nat -> Forall (fun c => c <> 0 /\ c <> 10) n ->
  take_line lim (n ++ 10 :: rest) = (n ++ [10], rest).
Proof.
  revert lim. induction n as [|c n IH]; intros lim Hl F; (destruct lim as [|lim]; [cbn in Hl; lia|]).
  - reflexivity.
  - apply Forall_cons_iff in F as [[_ Hc] F]. cbn [app take_line]. destruct (N.eqb_spec c NL) as [E|_]; [contradiction|].
    cbn in Hl. rewrite IH by (auto; lia). reflexivity.
Qed.
Lemma cstr_plain n : Forall (fun c => c <> 0 /\ c <> 10) n -> cstr (n ++ [10]) = n ++ [10].
Proof.
  induction 1 as [|c n [Hc _] F IH]; [reflexivity|]. cbn [app cstr]. destruct (N.eqb_spec c 0); [contradiction|]. f_equal. exact IH.
Qed.
Lemma strip_name n : n <> nil -> last n 0 <> 13 -> Forall (fun c => c <> 0 /\ c <> 10) n -> strip (n ++ [10]) = n.
Proof.
  intros Hn Hl F. destruct (@exists_last _ n Hn) as (m & c & ->). rewrite last_last in Hl.
  apply Forall_app in F as [_ Fc]. apply Forall_cons_iff in Fc as [[_ Hc] _].
  unfold strip. rewrite rev_app_distr. cbn [rev app drop_eol].
  change (10 =? NL) with true. cbn [orb]. rewrite rev_app_distr. cbn [rev app drop_eol]. destruct (N.eqb_spec c NL); [contradiction|].
  destruct (N.eqb_spec c CR); [contradiction|]. cbn [orb rev]. rewrite rev_involutive. reflexivity.
Qed.
Definition path_limit : nat := N.to_nat (PATH_MAX - 1).
Lemma fgets_name n rest : (length n < path_limit)%nat -> Forall (fun c => c <> 0 /\ c <> 10) n ->
  fgets (n ++ 10 :: rest) = Some (n ++ [10], rest).
Proof.
  intros Hl F. unfold fgets. rewrite take_line_name by auto. destruct n; reflexivity.
Qed.

(** * gostsum *)
(** Well-formed entries: 64 hexadecimal digits and a plain name of at most 4094 characters. *)
Definition entry94 (e : list N * list N) : Prop :=
  length (fst e) = 64%nat /\ Forall hex_char (fst e) /\ plain_name (N.to_nat 4094) (snd e).
Lemma get_line_entry h n rest : entry94 (h, n) -> get_line (h ++ [32] ++ n ++ [10] ++ rest) = Line h n rest.
Proof.
  intros (Lh & Fh & Hn & Fn & Ln & Hl). cbn [fst snd] in *. unfold get_line.
  destruct (Nat.ltb_spec (length (h ++ [32] ++ n ++ [10] ++ rest)) 64) as [L|_]; [rewrite app_length in L; lia|].
  rewrite (firstn_app_exact 64 h _ Lh), (skipn_app_exact 64 h _ Lh).
  replace (forallb is_hex_char h) with true.
  2:{ symmetry. apply forallb_forall. intros c Hc. apply is_hex_char_spec. rewrite Forall_forall in Fh. auto. }
  cbn [negb app]. change (32 =? SP) with true. cbn [negb]. rewrite fgets_name; [|unfold path_limit, PATH_MAX; lia|exact Fn].
  rewrite cstr_plain, strip_name by auto. destruct n; [congruence|reflexivity].
Qed.

Lemma sum_sbox_ok t : subst_ok (sum_sbox t).
Proof.
  pose proof all_subst_blocks_ok as A. rewrite Forall_forall in A. apply A. destruct t; cbn; tauto.
Qed.
Lemma chunks_hinv sb cs : subst_ok sb -> Forall bytes cs -> forall x m, bytes m -> hinv sb x m ->
  bytes (m ++ concat cs) /\ hinv sb (fold_left hash_block cs x) (m ++ concat cs).
Proof.
  intros Hs. induction cs as [|d cs IH]; intros Fc x m Bm I.
  - cbn [concat fold_left]. rewrite app_nil_r. auto.
  - apply Forall_cons_iff in Fc as [Bd Fc]. cbn [concat fold_left]. rewrite app_assoc. apply IH; auto.
    + apply bytes_app; auto.
    + apply hash_block_inv; auto.
Qed.
Lemma pad32_mod m : (length (pad32 m) mod 32 = 0)%nat.
Proof.
  unfold pad32. destruct m as [|b m]; [reflexivity|]. rewrite app_length, zeros_length.
  generalize (length (b :: m)). intros n. pose proof (Nat.div_mod_eq n 32). pose proof (Nat.mod_upper_bound n 32 ltac:(lia)).
  destruct (Nat.eq_dec (n mod 32) 0) as [E|E].
  + rewrite E. rewrite Nat.sub_0_r, Nat.mod_same, Nat.add_0_r by lia. exact E.
  + rewrite (Nat.mod_small (32 - n mod 32)) by lia. replace (n + (32 - n mod 32))%nat with ((1 + n / 32) * 32)%nat by lia.
    apply Nat.mod_mul. lia.
Qed.
Lemma pad32_bytes m : bytes m -> bytes (pad32 m).
Proof. intros Bm. unfold pad32. destruct m; [apply bytes_zeros|]. apply bytes_app; [exact Bm|apply bytes_zeros]. Qed.
Lemma fold_chi_blk32 S B : Forall blk32 B -> forall h, blk32 h -> blk32 (fold_left (fun h b => chi S b h) B h).
Proof.
  intros F h Hh. apply (fold_blk32 (fun h b => chi S b h)); [|exact F|exact Hh]. intros; apply chi_blk32; assumption.
Qed.
Lemma n2le_blk32 n : blk32 (n2le 32 n).
Proof. split; [apply n2le_length|apply n2le_bytes]. Qed.
Lemma hash94_blk32 S m : bytes m -> blk32 (hash94 S m).
Proof.
  intros Bm. unfold hash94. cbv zeta.
  exact (chi_blk32 S _ _ (n2le_blk32 _) (chi_blk32 S _ _ (n2le_blk32 _)
    (fold_chi_blk32 S _ (blocks_blk32 _ (pad32_mod m) (pad32_bytes m Bm)) _ blk32_zeros))).
Qed.
Lemma hash94_bytes S m : bytes m -> bytes (hash94 S m) /\ length (hash94 S m) = 32%nat.
Proof. intros Bm. destruct (hash94_blk32 S m Bm) as [H1 H2]. exact (conj H2 H1). Qed.
Definition usable (t : bool) (x : hash_ctx) : Prop := exists m, hinv (sum_sbox t) x m.
Lemma hash_file_spec t x o : usable t x ->
  (forall o', o = Some o' -> Forall bytes (o_chunks o') /\ N.of_nat (length (concat (o_chunks o'))) < 2 ^ 60) ->
  usable t (fst (hash_file x o)) /\
  snd (hash_file x o) = match content_of o with Some c => Some (text94 t c) | None => None end.
Proof.
  intros [m I] W. destruct o as [[cs er]|]; cbn [hash_file content_of fst snd]; [|split; [exists m; exact I|reflexivity]].
  destruct (W _ eq_refl) as [Fc Lc]. cbn [o_chunks] in *. unfold hash_stream. cbn [o_chunks o_error].
  destruct (chunks_hinv (sum_sbox t) cs (sum_sbox_ok t) Fc (start_hash x) nil) as [Bc Ic]; [constructor|apply (restart_inv _ x m); [apply sum_sbox_ok|exact I]|].
  cbn [app] in *. destruct er; cbn [fst snd]; [split; [exists (concat cs); exact Ic|reflexivity]|].
  destruct (finish_hash_spec (sum_sbox t) (sum_sbox_ok t) _ (concat cs) Bc Ic) as [F1 F2].
  { change (2 ^ 60) with 1152921504606846976 in Lc. exact Lc. }
  destruct (finish_hash _) as [x' h]. cbn [fst snd] in *. subst h. split; [exists (concat cs); exact F2|].
  unfold text94. rewrite hexstr_text; [reflexivity|]. apply bytes_rev, hash94_bytes. exact Bc.
Qed.

Lemma hash_file_pair t x o : usable t x ->
  (forall o', o = Some o' -> Forall bytes (o_chunks o') /\ N.of_nat (length (concat (o_chunks o'))) < 2 ^ 60) ->
  exists x', usable t x' /\ hash_file x o = (x', match content_of o with Some c => Some (text94 t c) | None => None end).
Proof.
  intros U W. destruct (hash_file_spec t x o U W) as [H1 H2]. destruct (hash_file x o) as [x' r]. cbn [fst snd] in *. subst r. exists x'. auto.
Qed.
Lemma code_cons (failed ok : bool) v : (if failed || negb (ok && v) then 1 else 0)%Z = (if (failed || negb ok) || negb v then 1 else 0)%Z.
Proof. destruct failed, ok, v; reflexivity. Qed.
Lemma check_loop_render t w : world_ok w -> forall l fuel k x failed rest,
  Forall entry94 l -> usable t x -> get_line rest = No_line -> (length l < fuel)%nat ->
  check_loop fuel w k x (render l ++ rest) failed =
  Exited (if failed || negb (all_ok (judge_all (fun _ => text94 t) w k l)) then 1 else 0) (judge_all (fun _ => text94 t) w k l).
Proof.
  intros W. induction l as [|[h n] l IH]; intros fuel k x failed rest F U R Hf; (destruct fuel as [|fuel]; [cbn in Hf; lia|]).
  - cbn [render flat_map app check_loop judge_all]. rewrite R. destruct failed; reflexivity.
  - apply Forall_cons_iff in F as [Fe F]. cbn [render flat_map fst snd check_loop judge_all].
    replace ((h ++ [32] ++ n ++ [10]) ++ flat_map (fun e => fst e ++ [32] ++ snd e ++ [10]) l) with (h ++ [32] ++ n ++ [10] ++ render l) by (rewrite <- !app_assoc; reflexivity).
    replace ((h ++ [32] ++ n ++ [10] ++ render l) ++ rest) with (h ++ [32] ++ n ++ [10] ++ (render l ++ rest)) by (rewrite <- !app_assoc; reflexivity).
    rewrite (get_line_entry h n _ Fe). destruct (hash_file_pair t x (w k n) U (W k n)) as (x' & U' & ->).
    cbn in Hf. unfold judge. destruct (content_of (w k n)) as [c|]; [destruct (eqbl (text94 t c) h)|];
      rewrite (IH fuel (S k) x' _ rest F U' R) by lia; cbn [add_verdict all_ok forallb snd]; rewrite code_cons;
      destruct failed; reflexivity.
Qed.
(** A text which does not begin like a line of a checksum list: shorter than a digest, not starting with 64 hexadecimal
    digits, or without a space after them. *)
Definition malformed94 (f : list N) : Prop :=
  (length f < 64)%nat \/ ~ Forall hex_char (firstn 64 f) \/ nth 64 f 0 <> 32.
Lemma malformed_no_line f : malformed94 f -> get_line f = No_line.
Proof.
  intros M. unfold get_line. destruct (Nat.ltb_spec (length f) 64) as [L|L]; [reflexivity|].
  destruct (forallb is_hex_char (firstn 64 f)) eqn:E; [|reflexivity]. cbn [negb].
  destruct (skipn 64 f) as [|c r] eqn:S; [reflexivity|]. destruct (N.eqb_spec c SP) as [->|Nc]; [exfalso|reflexivity].
  destruct M as [M|[M|M]]; [lia| |].
  - apply M. apply Forall_forall. intros c Hc. apply is_hex_char_spec. rewrite forallb_forall in E. auto.
  - apply M. rewrite <- (firstn_skipn 64 f), app_nth2, firstn_length, S by (rewrite firstn_length; lia).
    replace (64 - Nat.min 64 (length f))%nat with 0%nat by lia. reflexivity.
Qed.
Lemma render_length l : Forall entry94 l -> (length l <= length (render l))%nat.
Proof.
  induction 1 as [|[h n] l (Lh & _) F IH]; [reflexivity|]. cbn [render flat_map fst snd length] in *. rewrite app_length, app_length, Lh. unfold render in IH. lia.
Qed.

Lemma check_loop_stop w k x f (failed : bool) fuel r :
  match get_line f with No_line => r = Exited (if failed then 1 else 0) nil | Bad_access => r = Undefined | _ => False end ->
  check_loop (S fuel) w k x f failed = r.
Proof. cbn [check_loop]. destruct (get_line f); [intros []|auto|auto]. Qed.

(** ** gostsum -c on a list of checksums, followed by the end of the file or by anything malformed: every line is judged
    by the standard's digest of the file's content - whatever was hashed before it and however the reads cut it - and the
    exit code is 0 exactly if all lines are good.  What follows the first malformed line is ignored. *)
Theorem C45_gostsum_check :
  forall c0 test w l rest, world_ok w -> Forall entry94 l -> malformed94 rest ->
    let verdicts := judge_all (fun _ => text94 test) w 0 l in
    gostsum_check c0 test w (render l ++ rest) = Exited (if all_ok verdicts then 0 else 1) verdicts.
Proof.
  intros c0 t w l rest W F M. cbv zeta. unfold gostsum_check.
  rewrite (check_loop_render t w W l _ 0 _ false rest F); cycle 1.
  - exists nil. apply init_inv.
  - apply malformed_no_line. exact M.
  - pose proof (render_length l F). rewrite app_length. lia.
  - cbn [orb]. destruct (all_ok _); reflexivity.
Qed.
Print Assumptions C45_gostsum_check.
Lemma judge_ok digest o h : judge digest o h = V_ok <-> exists c, content_of o = Some c /\ digest c = h.
Proof.
  unfold judge. destruct (content_of o) as [c|]; [|split; [congruence|intros (c & H & _); congruence]].
  destruct (eqbl (digest c) h) eqn:E.
  - apply eqbl_eq in E. split; [intros _; exists c; auto|reflexivity].
  - split; [congruence|]. intros (c' & Ec & Eh). injection Ec as <-. rewrite Eh in E.
    assert (eqbl h h = true) by (apply eqbl_eq; reflexivity). congruence.
Qed.
Lemma all_ok_judge digest w l : forall k, all_ok (judge_all digest w k l) = true <->
  forall i h n, nth_error l i = Some (h, n) -> exists c, content_of (w (k + i)%nat n) = Some c /\ digest h c = h.
Proof.
  induction l as [|[h n] l IH]; intros k.
  - split; [intros _ [|i] h n E; discriminate E|reflexivity].
  - cbn [judge_all all_ok forallb snd]. rewrite andb_true_iff. fold (all_ok (judge_all digest w (S k) l)). rewrite (IH (S k)). split.
    + intros [H1 H2] [|i] h' n' E.
      * injection E as <- <-. rewrite Nat.add_0_r. apply judge_ok. destruct (judge _ _ _); congruence.
      * replace (k + S i)%nat with (S k + i)%nat by lia. exact (H2 i h' n' E).
    + intros H. split.
      * pose proof (H 0%nat h n eq_refl) as Q. rewrite Nat.add_0_r in Q. apply judge_ok in Q. rewrite Q. reflexivity.
      * intros i h' n' E. replace (S k + i)%nat with (k + S i)%nat by lia. exact (H (S i) h' n' E).
Qed.
(** The same in words of files: exit code 0 exactly if each listed file could be read to its end and the listed digest is
    the lower case text of its GOST R 34.11-94 hash. *)
Theorem C45_gostsum_exit_zero :
  forall c0 test w l, world_ok w -> Forall entry94 l ->
    (exists v, gostsum_check c0 test w (render l) = Exited 0 v) <->
    forall i h n, nth_error l i = Some (h, n) -> exists c, content_of (w i n) = Some c /\ text94 test c = h.
Proof.
  intros c0 t w l W F. assert (M : malformed94 nil) by (left; cbn; lia).
  pose proof (C45_gostsum_check c0 t w l nil W F M) as E. cbv zeta in E. rewrite app_nil_r in E. rewrite E.
  rewrite <- (all_ok_judge (fun _ => text94 t) w l 0).
  destruct (all_ok _); split; try congruence; [eauto|]. intros [v H]. discriminate H.
Qed.

(** Defect: a malformed line ends the run with exit code 0 and no verdicts on the rest - here a list whose first line has
    a digest one character short, in any file system, even one without any file. *)
Theorem C45_gostsum_rest_unchecked_refuted :
  forall c0 test w rest, gostsum_check c0 test w (repeat 48 63 ++ [32; 97; 10] ++ rest) = Exited 0 nil.
Proof.
  intros. unfold gostsum_check. apply check_loop_stop. rewrite malformed_no_line; [reflexivity|].
  right. right. cbn. lia.
Qed.
(** Defect: a line with upper case digits is accepted as input, but never matches. *)
Lemma text94_lower t c : bytes c -> Forall (fun c => hex_char c /\ ~ 65 <= c <= 70) (text94 t c).
Proof. intros B. apply hex_text_chars, bytes_rev, hash94_bytes, B. Qed.
Theorem C45_gostsum_upper_case_never_matches :
  forall c0 test w h n d, world_ok w -> entry94 (h, n) -> In d h -> 65 <= d <= 70 ->
    exists v, gostsum_check c0 test w (render [(h, n)]) = Exited 1 v.
Proof.
  intros c0 t w h n d W E Hd Hr. assert (M : malformed94 nil) by (left; cbn; lia).
  pose proof (C45_gostsum_check c0 t w [(h, n)] nil W (Forall_cons _ E (Forall_nil _)) M) as Q. cbv zeta in Q. rewrite app_nil_r in Q. rewrite Q.
  destruct (all_ok _) eqn:A; [exfalso|eauto]. rewrite (all_ok_judge (fun _ => text94 t) w [(h, n)] 0) in A.
  destruct (A 0%nat h n eq_refl) as (c & C & T). rewrite <- T in Hd.
  assert (B : bytes c).
  { unfold content_of in C. destruct (w (0 + 0)%nat n) as [o|] eqn:Wo; [|discriminate C]. destruct (o_error o); [discriminate C|]. injection C as <-.
    destruct (W _ _ _ Wo) as [Fb _]. clear - Fb. induction Fb; [constructor|]. cbn [concat]. apply bytes_app; auto. }
  pose proof (text94_lower t c B) as L. rewrite Forall_forall in L. destruct (L d Hd). contradiction.
Qed.
(** Defect: a digest and a space at the end of the file crash the tool (gostsum.c:209 takes the length of NULL), an empty
    name makes it read in front of its buffer (gostsum.c:210). *)
Theorem C45_gostsum_undefined_refuted :
  forall c0 test w h rest, length h = 64%nat -> Forall hex_char h ->
    gostsum_check c0 test w (h ++ [32]) = Undefined /\ gostsum_check c0 test w (h ++ [32; 10] ++ rest) = Undefined.
Proof.
  intros c0 t w h rest Lh Fh.
  assert (H : forallb is_hex_char h = true) by (apply forallb_forall; intros c Hc; apply is_hex_char_spec; rewrite Forall_forall in Fh; auto).
  assert (G : forall r, get_line (h ++ r) = match r with nil => No_line | c :: f => if negb (c =? SP) then No_line else match fgets f with None => Bad_access
     | Some (buf, rest) => match strip (cstr buf) with nil => Bad_access | name => Line h name rest end end end).
  { intros r. unfold get_line. destruct (Nat.ltb_spec (length (h ++ r)) 64) as [L|_]; [rewrite app_length in L; lia|].
    rewrite (firstn_app_exact 64 h _ Lh), (skipn_app_exact 64 h _ Lh), H. reflexivity. }
  unfold gostsum_check. split; apply check_loop_stop; rewrite G; cbn [app fgets]; change (32 =? SP) with true; cbn [negb]; [reflexivity|].
  change (N.to_nat (PATH_MAX - 1)) with (S (N.to_nat 4094)). cbn [take_line]. reflexivity.
Qed.
(** ** Every check file whatsoever: the exit code is 0 or 1, 0 exactly if no verdict was bad, and OK is reported for a name
    only if the check file contains the true digest of the file's content, a space and the name. *)
Lemma cstr_prefix s : exists r, s = cstr s ++ r.
Proof.
  induction s as [|c s [r IH]]; [exists nil; reflexivity|]. cbn [cstr]. destruct (c =? 0); [exists (c :: s); reflexivity|].
  exists r. cbn. rewrite <- IH. reflexivity.
Qed.
Lemma drop_eol_suffix r : exists p, r = p ++ drop_eol r.
Proof.
  induction r as [|c r [p IH]]; [exists nil; reflexivity|]. cbn [drop_eol]. destruct (_ || _); [|exists nil; reflexivity].
  exists (c :: p). cbn. rewrite <- IH. reflexivity.
Qed.
Lemma strip_prefix s : exists r, s = strip s ++ r.
Proof.
  destruct (drop_eol_suffix (rev s)) as [p E]. exists (rev p). unfold strip. rewrite <- rev_app_distr, <- E, rev_involutive. reflexivity.
Qed.
Lemma take_line_app n : forall f, f = fst (take_line n f) ++ snd (take_line n f).
Proof.
  induction n as [|n IH]; intros [|c f]; try reflexivity. cbn [take_line]. destruct (c =? NL); [reflexivity|].
  specialize (IH f). destruct (take_line n f) as [l r]. cbn in *. rewrite <- IH. reflexivity.
Qed.
Lemma get_line_inv f h n rest : get_line f = Line h n rest ->
  exists mid, f = h ++ [32] ++ n ++ mid ++ rest /\ length h = 64%nat.
Proof.
  unfold get_line. remember (firstn 64 f) as h0 eqn:Eh0. destruct (Nat.ltb_spec (length f) 64) as [L|L]; [congruence|]. destruct (negb (forallb is_hex_char h0)); [congruence|].
  destruct (skipn 64 f) as [|c f1] eqn:E; [congruence|]. destruct (N.eqb_spec c SP) as [->|_]; cbn [negb]; [|congruence].
  destruct (fgets f1) as [[buf r]|] eqn:G; [|congruence]. destruct (strip (cstr buf)) as [|a b] eqn:S; [congruence|].
  intros H. assert (H1 : h = h0) by congruence. assert (H2 : n = a :: b) by congruence. assert (H3 : rest = r) by congruence. subst h n rest. unfold fgets in G. destruct f1 as [|c1 f1]; [congruence|].
  assert (T : c1 :: f1 = buf ++ r).
  { revert G. generalize (N.to_nat (PATH_MAX - 1)). intros lim G. pose proof (take_line_app lim (c1 :: f1)) as T.
    destruct (take_line lim (c1 :: f1)) as [b1 r1]. cbn [fst snd] in T. congruence. }
  destruct (cstr_prefix buf) as [r1 E1]. destruct (strip_prefix (cstr buf)) as [r2 E2]. exists (r2 ++ r1).
  split; [|rewrite Eh0, firstn_length; lia]. rewrite <- (firstn_skipn 64 f) at 1. rewrite <- Eh0. f_equal. rewrite E. cbn [app]. f_equal. rewrite T.
  rewrite E1 at 1. rewrite E2 at 1. rewrite S. cbn [app]. rewrite <- !app_assoc. reflexivity.
Qed.
Lemma check_loop_sound t w : world_ok w -> forall fuel k x f failed, usable t x -> (length f < fuel)%nat ->
  match check_loop fuel w k x f failed with
  | Exited code v => code = (if failed || negb (all_ok v) then 1 else 0)%Z /\
      forall n, In (n, V_ok) v -> exists j c pre post, content_of (w j n) = Some c /\ f = pre ++ text94 t c ++ [32] ++ n ++ post
  | Undefined => True
  | Out_of_fuel => False
  end.
Proof.
  intros W. induction fuel as [|fuel IH]; intros k x f failed U Hf; [lia|]. cbn [check_loop].
  destruct (get_line f) as [h n rest| |] eqn:G; [|split; [destruct failed; reflexivity|intros n []]|exact Logic.I].
  destruct (get_line_inv f h n rest G) as (mid & Ef & Lh).
  assert (Lr : (length rest < fuel)%nat) by (rewrite Ef, !app_length, Lh in Hf; lia).
  assert (Push : forall c0 v, (exists j c pre post, content_of (w j v) = Some c /\ rest = pre ++ text94 t c ++ [32] ++ v ++ post) \/ (c0 = true /\ False) ->
     exists j c pre post, content_of (w j v) = Some c /\ f = pre ++ text94 t c ++ [32] ++ v ++ post).
  { intros _ v [(j & c & pre & post & C & E)|[_ []]]. exists j, c, (h ++ [32] ++ n ++ mid ++ pre), post. split; [exact C|].
    rewrite Ef at 1. rewrite E at 1. rewrite <- !app_assoc. reflexivity. }
  destruct (hash_file_pair t x (w k n) U (W k n)) as (x' & U' & ->).
  destruct (content_of (w k n)) as [c|] eqn:C; [destruct (eqbl (text94 t c) h) eqn:Q|].
  - specialize (IH (S k) x' rest failed U' Lr). destruct (check_loop fuel w (S k) x' rest failed) as [code v| |]; cbn [add_verdict]; auto.
    destruct IH as [IH1 IH2]. split; [exact IH1|]. intros n' [E|E].
    + injection E as <-. apply eqbl_eq in Q. exists k, c, nil, (mid ++ rest). split; [exact C|]. rewrite Q. exact Ef.
    + apply (Push true). left. exact (IH2 n' E).
  - specialize (IH (S k) x' rest true U' Lr). destruct (check_loop fuel w (S k) x' rest true) as [code v| |]; cbn [add_verdict]; auto.
    destruct IH as [IH1 IH2]. cbn [orb] in IH1. split; [rewrite IH1; destruct failed; reflexivity|]. intros n' [E|E]; [congruence|]. apply (Push true). left. exact (IH2 n' E).
  - specialize (IH (S k) x' rest true U' Lr). destruct (check_loop fuel w (S k) x' rest true) as [code v| |]; cbn [add_verdict]; auto.
    destruct IH as [IH1 IH2]. cbn [orb] in IH1. split; [rewrite IH1; destruct failed; reflexivity|]. intros n' [E|E]; [congruence|]. apply (Push true). left. exact (IH2 n' E).
Qed.
Theorem C45_gostsum_sound :
  forall c0 test w f, world_ok w ->
    match gostsum_check c0 test w f with
    | Exited code v =>
        code = (if all_ok v then 0 else 1)%Z /\
        forall n, In (n, V_ok) v -> exists k c pre post, content_of (w k n) = Some c /\ f = pre ++ text94 test c ++ [32] ++ n ++ post
    | Undefined => True
    | Out_of_fuel => False
    end.
Proof.
  intros c0 t w f W. pose proof (check_loop_sound t w W (S (length f)) 0 (init_gost_hash_ctx c0 (sum_sbox t)) f false) as S.
  unfold gostsum_check. destruct (check_loop _ _ _ _ _ _) as [code v| |]; [|exact Logic.I|apply S; [exists nil; apply init_inv|lia]].
  destruct S as [S1 S2]; [exists nil; apply init_inv|lia|]. split; [|exact S2]. rewrite S1. cbn [orb]. destruct (all_ok v); reflexivity.
Qed.
Print Assumptions C45_gostsum_sound.

(** ** Generating and checking: what gostsum prints for plain names is accepted by gostsum -c as long as the contents stay *)
Definition serves (w : world) (contents : list N -> option (list N)) : Prop := forall k n, content_of (w k n) = contents n.
Definition readable (contents : list N -> option (list N)) (names : list (list N)) : list (list N) :=
  filter (fun n => match contents n with Some _ => true | None => false end) names.
Definition entries (text : list N -> list N) (contents : list N -> option (list N)) (names : list (list N)) : list (list N * list N) :=
  map (fun n => (text (match contents n with Some c => c | None => nil end), n)) (readable contents names).
Lemma gen_loop_spec t w fc : world_ok w -> serves w fc -> forall names k x errors, usable t x ->
  gen_loop w k x names errors =
  (render (entries (text94 t) fc names), if errors || negb (length (readable fc names) =? length names)%nat then 1 else 0)%Z.
Proof.
  intros W Sv. induction names as [|n names IH]; intros k x errors U; [destruct errors; reflexivity|]. cbn [gen_loop].
  destruct (hash_file_pair t x (w k n) U (W k n)) as (x' & U' & ->). rewrite (Sv k n).
  assert (Le : (length (readable fc names) <= length names)%nat) by (unfold readable; clear; induction names as [|a l IH]; [reflexivity|]; cbn; destruct (fc a); cbn; lia).
  unfold entries, readable in *. cbn [filter]. destruct (fc n) as [c|] eqn:E.
  - rewrite (IH (S k) x' errors U'). cbn [map length render flat_map fst snd]. rewrite E. f_equal.
    rewrite <- !app_assoc. reflexivity.
  - rewrite (IH (S k) x' true U'). cbn [orb length]. f_equal. destruct (Nat.eqb_spec (length (filter (fun n0 => match fc n0 with Some _ => true | None => false end) names)) (S (length names))); [lia|].
    destruct errors; reflexivity.
Qed.
Lemma content_bytes w k n c : world_ok w -> content_of (w k n) = Some c -> bytes c.
Proof.
  intros W C. unfold content_of in C. destruct (w k n) as [o|] eqn:Wo; [|discriminate C]. destruct (o_error o); [discriminate C|]. injection C as <-.
  destruct (W _ _ _ Wo) as [Fb _]. clear - Fb. induction Fb; [constructor|]. cbn [concat]. apply bytes_app; auto.
Qed.
Lemma text94_length t c : bytes c -> length (text94 t c) = 64%nat.
Proof. intros B. unfold text94. rewrite hex_text_length, rev_length. destruct (hash94_bytes (sboxes_of (sum_sbox t)) c B) as [_ ->]. reflexivity. Qed.
Lemma readable_in fc names n : In n (readable fc names) <-> In n names /\ fc n <> None.
Proof. unfold readable. rewrite filter_In. destruct (fc n); split; intros [H1 H2]; split; auto; congruence. Qed.
Lemma readable_all fc names : length (readable fc names) = length names <-> forall n, In n names -> fc n <> None.
Proof.
  unfold readable. induction names as [|a l IH]; [split; [intros _ n []|reflexivity]|]. cbn [filter length].
  assert (Le : (length (filter (fun n => match fc n with Some _ => true | None => false end) l) <= length l)%nat) by (clear; induction l as [|b l IH]; [reflexivity|]; cbn; destruct (fc b); cbn; lia).
  destruct (fc a) as [c|] eqn:E; cbn [length].
  - split.
    + intros H n [<-|Hn]; [congruence|]. apply IH; [lia|exact Hn].
    + intros H. f_equal. apply IH. intros n Hn. apply H. right. exact Hn.
  - split; [lia|]. intros H. exfalso. apply (H a); [left; reflexivity|exact E].
Qed.
Lemma judge_all_entries text w fc names : serves w fc -> forall k,
  judge_all (fun _ => text) w k (entries text fc names) = map (fun n => (n, V_ok)) (readable fc names).
Proof.
  intros Sv. unfold entries. assert (F : Forall (fun n => fc n <> None) (readable fc names)) by (apply Forall_forall; intros n Hn; apply readable_in in Hn; tauto).
  induction F as [|n l Hn F IH]; intros k; [reflexivity|]. cbn [map judge_all]. rewrite IH. f_equal. f_equal. apply judge_ok. rewrite (Sv k n).
  destruct (fc n) as [c|]; [|congruence]. exists c. auto.
Qed.
Lemma all_ok_map l : all_ok (map (fun n : list N => (n, V_ok)) l) = true.
Proof. unfold all_ok. induction l; [reflexivity|exact IHl]. Qed.
Theorem C45_gostsum_round_trip :
  forall c0 c1 test contents w w' names, world_ok w -> world_ok w' -> serves w contents -> serves w' contents ->
    Forall (plain_name (N.to_nat 4094)) names ->
    let '(out, code) := gostsum_generate c0 test w names in
    (code = 0%Z <-> forall n, In n names -> contents n <> None) /\
    gostsum_check c1 test w' out = Exited 0 (map (fun n => (n, V_ok)) (readable contents names)).
Proof.
  intros c0 c1 t fc w w' names W W' Sv Sv' F. unfold gostsum_generate.
  rewrite (gen_loop_spec t w fc W Sv) by (exists nil; apply init_inv). split.
  - cbn [orb]. rewrite <- readable_all. destruct (Nat.eqb_spec (length (readable fc names)) (length names)); cbn [negb]; split; intros; auto; congruence.
  - assert (M : malformed94 nil) by (left; cbn; lia).
    assert (Fe : Forall entry94 (entries (text94 t) fc names)).
    { unfold entries. apply Forall_forall. intros e He. apply in_map_iff in He as (n & <- & Hn). apply readable_in in Hn as [Hn Hc].
      destruct (fc n) as [c|] eqn:E; [|congruence]. assert (B : bytes c) by (apply (content_bytes w 0 n c W); rewrite (Sv 0%nat n); exact E).
      split; [apply text94_length; exact B|]. split; [|rewrite Forall_forall in F; apply F; exact Hn].
      cbn [fst]. eapply Forall_impl; [|apply text94_lower; exact B]. intros a [H _]. exact H. }
    pose proof (C45_gostsum_check c1 t w' _ nil W' Fe M) as Q. cbv zeta in Q. rewrite app_nil_r in Q. rewrite Q.
    rewrite (judge_all_entries (text94 t) w' fc names Sv'), all_ok_map. reflexivity.
Qed.
Print Assumptions C45_gostsum_round_trip.

(** * gost12sum *)
Lemma streebog_blk64 iv m : blk64 iv -> bytes m -> blk64 (streebog iv m).
Proof.
  intros Hiv Bm. unfold streebog, stage3_rest. cbv zeta.
  set (s := fold_left _ _ _).
  assert (Hs : blk64 (s_h s)).
  { subst s. assert (FB : Forall blk64 (blocks 64 (firstn (whole m) m))).
    { apply blocks_blk64; [apply (full_mod 64 m); lia|apply bytes_firstn; auto]. }
    assert (G0 : forall B s0, Forall blk64 B -> blk64 (s_h s0) -> blk64 (s_h (fold_left stage2_block B s0))).
    { induction B as [|b B IH]; intros s0 FB0 H0; [exact H0|]. apply Forall_cons_iff in FB0 as [Hb FB0].
      cbn [fold_left]. apply IH; auto. unfold stage2_block. cbn [s_h].
      apply (g_spec RefLE); auto. apply vec_blk64. }
    apply G0; auto. }
  set (r := skipn (whole m) m).
  assert (Hr : blk64 (r ++ [1] ++ zeros (63 - List.length r))).
  { assert (Hl : (List.length r < 64)%nat) by (apply (tail_lt 64 m); lia).
    split; [rewrite !app_length, zeros_length; cbn [List.length]; lia|].
    apply bytes_app; [apply bytes_skipn; auto|]. apply bytes_app; [repeat constructor|apply bytes_zeros]. }
  apply (g_spec RefLE); try apply vec_blk64. apply (g_spec RefLE); try apply vec_blk64.
  apply (g_spec RefLE); auto. apply vec_blk64.
Qed.
Lemma streebog_len_bytes c : bytes c ->
  (length (streebog512 c) = 64%nat /\ bytes (streebog512 c)) /\ (length (streebog256 c) = 32%nat /\ bytes (streebog256 c)).
Proof.
  intros B. destruct (streebog_blk64 (repeat 0 64) c blk64_zeros B) as [L1 B1].
  destruct (streebog_blk64 (repeat 1 64) c ltac:(split; [reflexivity|apply bytes_forallb; reflexivity]) B) as [L2 B2].
  unfold streebog512, streebog256. split; split; auto; [rewrite skipn_length, L2; reflexivity|apply bytes_skipn; exact B2].
Qed.
Definition size12 (size : N) : Prop := size = 32 \/ size = 64.
Lemma text12_spec size c : size12 size -> bytes c ->
  length (text12 size c) = N.to_nat (2 * size) /\ Forall (fun d => hex_char d /\ ~ 65 <= d <= 70) (text12 size c).
Proof.
  intros Hs B. destruct (streebog_len_bytes c B) as [[L1 B1] [L2 B2]]. unfold text12. rewrite hex_text_length.
  destruct Hs as [-> | ->]; [change (32 =? 64) with false|change (64 =? 64) with true]; cbv iota; (split; [|apply hex_text_chars; assumption]).
  - rewrite L2. reflexivity.
  - rewrite L1. reflexivity.
Qed.
Lemma hash_file12_spec bd ac size o : size12 size ->
  (forall o', o = Some o' -> Forall bytes (o_chunks o') /\ N.of_nat (length (concat (o_chunks o'))) < 2 ^ 60) ->
  hash_file12 bd ac size o = match content_of o with Some c => Some (text12 size c) | None => None end.
Proof.
  intros Hs W. destruct o as [[cs er]|]; [|reflexivity]. cbn [hash_file12 content_of]. unfold hash_stream12. cbn [o_error o_chunks].
  destruct er; [reflexivity|]. destruct (W _ eq_refl) as [Fb _]. cbn [o_chunks] in Fb. f_equal.
  destruct (C19_streebog_chunks_match_standard bd ac cs Fb) as [E1 E2]. unfold hash2012 in E1, E2.
  assert (B : bytes (concat cs)) by (clear - Fb; induction Fb; [constructor|]; cbn [concat]; apply bytes_app; auto).
  destruct (streebog_len_bytes (concat cs) B) as [[L1 B1] [L2 B2]]. unfold text12.
  destruct Hs as [-> | ->].
  - change (32 * 8) with 256. rewrite E2. change (32 =? 64) with false. cbv iota. rewrite firstn_all2 by (rewrite L2; lia). apply hexstr_text. exact B2.
  - change (64 * 8) with 512. rewrite E1. change (64 =? 64) with true. cbv iota. rewrite firstn_all2 by (rewrite L1; lia). apply hexstr_text. exact B1.
Qed.

(** The lines of a check file: entries with 64 or 128 digits, entries with another number of digits, and other text -
    lines without a space or whose first word is not a hexadecimal number. *)
Inductive item := Entry (h n : list N) | Wrong_length (h n : list N) | Other (s : list N).
Definition line_text (i : item) : list N := match i with Entry h n => h ++ [32] ++ n | Wrong_length h n => h ++ [32] ++ n | Other s => s end.
Definition render12 (l : list item) : list N := flat_map (fun i => line_text i ++ [10]) l.
Definition item_ok (i : item) : Prop :=
  (length (line_text i) <= N.to_nat 4094)%nat /\
  match i with
  | Entry h n => (length h = 64%nat \/ length h = 128%nat) /\ Forall hex_char h /\ n <> nil /\ Forall (fun c => c <> 0 /\ c <> 10) n /\ last n 0 <> 13
  | Wrong_length h n => (h <> nil /\ length h <> 64%nat /\ length h <> 128%nat) /\ Forall hex_char h /\ n <> nil /\ Forall (fun c => c <> 0 /\ c <> 10) n /\ last n 0 <> 13
  | Other s => s <> nil /\ Forall (fun c => c <> 0 /\ c <> 10) s /\ last s 0 <> 13 /\ hd 0 s <> 32 /\
               (~ In 32 s \/ exists w d r, s = w ++ [32] ++ r /\ ~ In 32 w /\ In d w /\ ~ hex_char d)
  end.
(** What the lines deserve; a file is opened for the first kind only, [k] counts the opens. *)
Fixpoint judge12 (w : world) (k : nat) (l : list item) : list (list N * verdict) :=
  match l with
  | nil => nil
  | Entry h n :: l => (n, judge (text12 (N.of_nat (length h) / 2)) (w k n) h) :: judge12 w (S k) l
  | Wrong_length h n :: l => (n, V_cannot_process) :: judge12 w k l
  | Other _ :: l => judge12 w k l
  end.
Lemma hex_char_plain h : Forall hex_char h -> Forall (fun c => c <> 0 /\ c <> 10) h /\ ~ In 32 h /\ forallb is_hex_char h = true.
Proof.
  intros F. split; [|split].
  - eapply Forall_impl; [|exact F]. unfold hex_char. intros a H. lia.
  - intros H. rewrite Forall_forall in F. specialize (F 32 H). unfold hex_char in F. lia.
  - apply forallb_forall. intros c Hc. apply is_hex_char_spec. rewrite Forall_forall in F. auto.
Qed.
Lemma split_space_at w r : ~ In 32 w -> split_space (w ++ 32 :: r) = Some (w, r).
Proof.
  induction w as [|c w IH]; intros H; [reflexivity|]. cbn [app split_space]. destruct (N.eqb_spec c SP) as [->|_]; [exfalso; apply H; left; reflexivity|].
  rewrite IH; [reflexivity|]. intros Q. apply H. right. exact Q.
Qed.
Lemma split_space_none s : ~ In 32 s -> split_space s = None.
Proof.
  induction s as [|c s IH]; intros H; [reflexivity|]. cbn [split_space]. destruct (N.eqb_spec c SP) as [->|_]; [exfalso; apply H; left; reflexivity|].
  rewrite IH; [reflexivity|]. intros Q. apply H. right. exact Q.
Qed.
Lemma skip_spaces_id s : hd 0 s <> 32 -> skip_spaces s = s.
Proof. destruct s as [|c s]; [reflexivity|]. cbn. destruct (N.eqb_spec c SP); [contradiction|reflexivity]. Qed.
Lemma parse_plain s : s <> nil -> Forall (fun c => c <> 0 /\ c <> 10) s -> last s 0 <> 13 -> hd 0 s <> 32 ->
  parse_line12 (s ++ [10]) = match s with
    | [_] => P_skip
    | _ => match split_space s with
           | None => P_skip | Some (_, nil) => P_skip
           | Some (h, name) =>
             if negb (forallb is_hex_char h) then P_skip
             else if (length h =? 64)%nat || (length h =? 128)%nat then P_line h name (N.of_nat (length h) / 2)
             else P_line (zeros 129) name 0 end end.
Proof.
  intros Hn F Hl Hh. unfold parse_line12. cbv zeta. rewrite skip_spaces_id by (destruct s; [congruence|exact Hh]). rewrite strip_name by auto.
  destruct s as [|a [|b s]]; [congruence|reflexivity|reflexivity].
Qed.
Lemma last_app_ne {A} (a b : list A) d : b <> nil -> last (a ++ b) d = last b d.
Proof.
  intros H. induction a as [|x a IH]; [reflexivity|]. cbn [app]. rewrite <- IH. destruct (a ++ b) eqn:E; [|reflexivity].
  apply app_eq_nil in E. tauto.
Qed.
Lemma hex_line h n : h <> nil -> Forall hex_char h -> n <> nil -> Forall (fun c => c <> 0 /\ c <> 10) n -> last n 0 <> 13 ->
  parse_line12 ((h ++ [32] ++ n) ++ [10]) =
  if (length h =? 64)%nat || (length h =? 128)%nat then P_line h n (N.of_nat (length h) / 2) else P_line (zeros 129) n 0.
Proof.
  intros Hh Fh Hn Fn Ln. destruct (hex_char_plain h Fh) as (Ph & Sh & Bh). rewrite parse_plain.
  - cbn [app]. rewrite (split_space_at h n Sh), Bh. destruct h as [|a h]; [congruence|]. destruct n as [|b n]; [congruence|].
    cbn [app negb]. destruct h; reflexivity.
  - destruct h; [congruence|discriminate].
  - apply Forall_app. split; [exact Ph|]. constructor; [lia|exact Fn].
  - rewrite last_app_ne by discriminate. cbn [app]. destruct n; [congruence|exact Ln].
  - destruct h as [|a h]; [congruence|]. cbn. apply Forall_cons_iff in Fh as [Fa _]. unfold hex_char in Fa. lia.
Qed.
Lemma item_plain i : item_ok i -> Forall (fun c => c <> 0 /\ c <> 10) (line_text i) /\ (length (line_text i) < path_limit)%nat.
Proof.
  intros [L H]. split; [|unfold path_limit, PATH_MAX; lia].
  destruct i as [h n|h n|s]; cbn [line_text].
  - destruct H as (_ & Fh & _ & Fn & _). apply Forall_app. split; [apply hex_char_plain; exact Fh|]. constructor; [lia|exact Fn].
  - destruct H as (_ & Fh & _ & Fn & _). apply Forall_app. split; [apply hex_char_plain; exact Fh|]. constructor; [lia|exact Fn].
  - tauto.
Qed.
Lemma parse_item i : item_ok i ->
  parse_line12 (line_text i ++ [10]) = match i with
    | Entry h n => P_line h n (N.of_nat (length h) / 2) | Wrong_length h n => P_line (zeros 129) n 0 | Other _ => P_skip end.
Proof.
  intros [L H]. destruct i as [h n|h n|s]; cbn [line_text] in *.
  - destruct H as (Lh & Fh & Hn & Fn & Ln). assert (Hh : h <> nil) by (destruct h; [destruct Lh; discriminate|discriminate]). rewrite hex_line by assumption.
    destruct Lh as [-> | ->]; reflexivity.
  - destruct H as ((Hh & N1 & N2) & Fh & Hn & Fn & Ln). rewrite hex_line by auto.
    destruct (Nat.eqb_spec (length h) 64); [contradiction|]. destruct (Nat.eqb_spec (length h) 128); [contradiction|]. reflexivity.
  - destruct H as (Hs & Fs & Ls & Hh & D). rewrite parse_plain by auto. destruct D as [D|(w & d & r & -> & Nw & Dw & Nd)].
    + rewrite split_space_none by exact D. destruct s as [|a [|b s]]; reflexivity.
    + cbn [app]. rewrite (split_space_at w r Nw). replace (forallb is_hex_char w) with false.
      * cbn [negb]. destruct (w ++ 32 :: r) as [|a [|b s]]; try reflexivity; destruct r; reflexivity.
      * symmetry. destruct (forallb is_hex_char w) eqn:E; [|reflexivity]. rewrite forallb_forall in E. exfalso. apply Nd, is_hex_char_spec, E, Dw.
Qed.
(** get_line skips the other lines. *)
Lemma get_line12_items l : Forall item_ok l -> forall fuel, (length l < fuel)%nat ->
  get_line12 fuel (render12 l) =
  (fix go l := match l with nil => No_line12 | Other _ :: l => go l
     | Entry h n :: l => Line12 h n (N.of_nat (length h) / 2) (render12 l)
     | Wrong_length h n :: l => Line12 (zeros 129) n 0 (render12 l) end) l.
Proof.
  induction 1 as [|i l Hi F IH]; intros fuel Hf; (destruct fuel as [|fuel]; [cbn in Hf; lia|]); [reflexivity|].
  cbn [get_line12]. destruct (item_plain i Hi) as [Pi Li].
  replace (render12 (i :: l)) with (line_text i ++ 10 :: render12 l) by (unfold render12; cbn [flat_map]; rewrite <- app_assoc; reflexivity).
  rewrite fgets_name by auto. rewrite cstr_plain by exact Pi. rewrite parse_item by exact Hi.
  destruct i as [h n|h n|s]; [reflexivity|reflexivity|]. apply IH. cbn in Hf. lia.
Qed.
Fixpoint drop_other (l : list item) : list item := match l with Other _ :: l => drop_other l | _ => l end.
Lemma drop_other_facts l : (length (drop_other l) <= length l)%nat /\ (Forall item_ok l -> Forall item_ok (drop_other l)) /\
  (forall w k, judge12 w k (drop_other l) = judge12 w k l) /\
  match drop_other l with Other _ :: _ => False | _ => True end.
Proof.
  induction l as [|[h n|h n|s] l (I1 & I2 & I3 & I4)]; cbn [drop_other]; try (repeat split; auto; fail).
  split; [cbn; lia|]. split; [|split; [exact I3|exact I4]]. intros F. apply Forall_cons_iff in F as [_ F]. auto.
Qed.
Lemma get_line12_drop l fuel : Forall item_ok l -> (length l < fuel)%nat ->
  get_line12 fuel (render12 l) = match drop_other l with nil => No_line12
     | Entry h n :: l => Line12 h n (N.of_nat (length h) / 2) (render12 l)
     | Wrong_length h n :: l => Line12 (zeros 129) n 0 (render12 l)
     | Other _ :: _ => No_line12 end.
Proof.
  intros F Hf. rewrite get_line12_items by auto. clear F Hf. induction l as [|[h n|h n|s] l IH]; try reflexivity. exact IH.
Qed.
Lemma render12_length l : Forall item_ok l -> (length l <= length (render12 l))%nat.
Proof.
  induction 1 as [|i l Hi F IH]; [reflexivity|]. unfold render12 in *. cbn [flat_map length]. rewrite !app_length. cbn [length]. lia.
Qed.
Lemma check_loop12_render bd ac w : world_ok w -> forall fuel l k failed, Forall item_ok l -> (length l < fuel)%nat ->
  check_loop12 fuel bd ac w k (render12 l) failed =
  Exited (if failed || negb (all_ok (judge12 w k l)) then 1 else 0) (judge12 w k l).
Proof.
  intros W. induction fuel as [|fuel IH]; intros l k failed F Hf; [lia|]. cbn [check_loop12].
  rewrite get_line12_drop by (auto; pose proof (render12_length l F); lia).
  destruct (drop_other_facts l) as (D1 & D2 & D3 & D4). rewrite <- D3. specialize (D2 F).
  destruct (drop_other l) as [|[h n|h n|s] l']; [destruct failed; reflexivity| | |contradiction];
    apply Forall_cons_iff in D2 as [Hi F']; cbn [length] in D1.
  - destruct Hi as (_ & Lh & _). assert (Sz : size12 (N.of_nat (length h) / 2)) by (destruct Lh as [-> | ->]; [left|right]; reflexivity).
    assert (Nz : N.of_nat (length h) / 2 =? 0 = false) by (destruct Sz as [-> | ->]; reflexivity). rewrite Nz.
    rewrite (hash_file12_spec bd ac _ (w k n) Sz (W k n)). cbn [judge12]. unfold judge.
    destruct (content_of (w k n)) as [c|]; [destruct (eqbl _ h)|]; rewrite (IH l' (S k)) by (auto; lia); cbn [add_verdict all_ok forallb snd]; rewrite code_cons; destruct failed; reflexivity.
  - change (0 =? 0) with true. cbv iota. rewrite (IH l' k) by (auto; lia). cbn [judge12 add_verdict all_ok forallb snd andb]. destruct failed; reflexivity.
Qed.
(** ** gost12sum -c: each entry is judged by the standard's digest (of the size given by the number of digits), an entry of
    another length counts as an error, and the exit code is 0 exactly if all these are good; other lines are skipped. *)
Theorem C45_gost12sum_check :
  forall bd ac w l, world_ok w -> Forall item_ok l ->
    gost12sum_check bd ac w (render12 l) = Exited (if all_ok (judge12 w 0 l) then 0 else 1) (judge12 w 0 l).
Proof.
  intros bd ac w l W F. unfold gost12sum_check. rewrite check_loop12_render by (auto; pose proof (render12_length l F); lia).
  cbn [orb]. destruct (all_ok _); reflexivity.
Qed.
Print Assumptions C45_gost12sum_check.
(** Defect: a line whose digest has a wrong character counts as other text: it is skipped and the exit code is 0, although
    the file it names was never looked at - for any such line and any file system. *)
Theorem C45_gost12sum_typo_unchecked_refuted :
  forall bd ac w h1 d h2 n, world_ok w -> Forall hex_char (h1 ++ h2) -> ~ hex_char d -> d <> 32 -> d <> 0 -> d <> 10 ->
    length (h1 ++ d :: h2) = 64%nat -> plain_name (N.to_nat 4000) n ->
    gost12sum_check bd ac w ((h1 ++ d :: h2) ++ [32] ++ n ++ [10]) = Exited 0 nil.
Proof.
  intros bd ac w h1 d h2 n W F Nd N1 N2 N3 L (Hn & Fn & Ln & Len).
  pose proof (C45_gost12sum_check bd ac w [Other ((h1 ++ d :: h2) ++ [32] ++ n)] W) as E. cbn [render12 flat_map line_text judge12 all_ok forallb] in E.
  replace ((((h1 ++ d :: h2) ++ [32] ++ n) ++ [10]) ++ nil) with ((h1 ++ d :: h2) ++ [32] ++ n ++ [10]) in E by (rewrite app_nil_r, <- !app_assoc; reflexivity).
  apply E. constructor; [|constructor]. destruct (hex_char_plain _ F) as (P & S & _). apply Forall_app in P as [P1 P2].
  split; [cbn [line_text]; rewrite app_length, L; cbn [app length]; lia|].
  split; [destruct h1; discriminate|]. split.
  { apply Forall_app. split; [apply Forall_app; split; [exact P1|constructor; [auto|exact P2]]|]. constructor; [lia|exact Fn]. }
  split; [rewrite last_app_ne by discriminate; cbn [app]; destruct n; [congruence|exact Ln]|].
  split; [destruct h1 as [|a h1]; [exact N1|]; cbn; intros ->; apply S; left; reflexivity|].
  right. exists (h1 ++ d :: h2), d, n. split; [reflexivity|]. split; [|split; [apply in_or_app; right; left; reflexivity|exact Nd]].
  intros Q. apply in_app_or in Q as [Q|[Q|Q]]; [apply S, in_or_app; auto|congruence|apply S, in_or_app; auto].
Qed.
(** Defect: an empty line makes it read in front of its buffer (gost12sum.c:264). *)
Theorem C45_gost12sum_empty_line_refuted : forall bd ac w rest, gost12sum_check bd ac w (10 :: rest) = Undefined.
Proof.
  intros. unfold gost12sum_check. cbn [check_loop12]. 
  assert (G : get_line12 (S (length (10 :: rest))) (10 :: rest) = Bad12); [|rewrite G; reflexivity].
  remember (length (10 :: rest)) as m. cbn [get_line12]. pose proof (fgets_name nil rest ltac:(unfold path_limit, PATH_MAX; cbn [length]; lia) (Forall_nil _)) as Q. cbn [app] in Q. rewrite Q. reflexivity.
Qed.
(** ** Generating and checking *)
Lemma gen_loop12_spec bd ac size w fc : size12 size -> world_ok w -> serves w fc -> forall names k errors,
  gen_loop12 bd ac size w k names errors =
  (render (entries (text12 size) fc names), if errors || negb (length (readable fc names) =? length names)%nat then 1 else 0)%Z.
Proof.
  intros Sz W Sv. induction names as [|n names IH]; intros k errors; [destruct errors; reflexivity|]. cbn [gen_loop12].
  rewrite (hash_file12_spec bd ac size (w k n) Sz (W k n)), (Sv k n).
  assert (Le : (length (readable fc names) <= length names)%nat) by (unfold readable; clear; induction names as [|a l IH]; [reflexivity|]; cbn; destruct (fc a); cbn; lia).
  unfold entries, readable in *. cbn [filter]. destruct (fc n) as [c|] eqn:E.
  - rewrite (IH (S k) errors). cbn [map length render flat_map fst snd]. rewrite E. f_equal.
    rewrite <- !app_assoc. reflexivity.
  - rewrite (IH (S k) true). cbn [orb length]. f_equal. destruct (Nat.eqb_spec (length (filter (fun n0 => match fc n0 with Some _ => true | None => false end) names)) (S (length names))); [lia|].
    destruct errors; reflexivity.
Qed.
Lemma judge12_entries size w fc names : size12 size -> (forall k n c, content_of (w k n) = Some c -> bytes c) -> serves w fc -> forall k,
  judge12 w k (map (fun e => Entry (fst e) (snd e)) (entries (text12 size) fc names)) = map (fun n => (n, V_ok)) (readable fc names).
Proof.
  intros Sz Bc Sv. unfold entries. assert (F : Forall (fun n => fc n <> None) (readable fc names)) by (apply Forall_forall; intros n Hn; apply readable_in in Hn; tauto).
  induction F as [|n l Hn F IH]; intros k; [reflexivity|]. cbn [map judge12 fst snd]. rewrite IH. f_equal. f_equal. apply judge_ok. rewrite (Sv k n).
  destruct (fc n) as [c|] eqn:E; [|congruence]. exists c. split; [reflexivity|].
  destruct (text12_spec size c Sz) as [L _]; [apply (Bc k n); rewrite (Sv k n); exact E|]. rewrite L, N2Nat.id.
  rewrite N.mul_comm, N.div_mul by discriminate. reflexivity.
Qed.
Theorem C45_gost12sum_round_trip :
  forall bd ac bd' ac' size contents w w' names, size12 size -> world_ok w -> world_ok w' -> serves w contents -> serves w' contents ->
    Forall (plain_name (N.to_nat 3965)) names ->
    let '(out, code) := gost12sum_generate bd ac size w names in
    (code = 0%Z <-> forall n, In n names -> contents n <> None) /\
    gost12sum_check bd' ac' w' out = Exited 0 (map (fun n => (n, V_ok)) (readable contents names)).
Proof.
  intros bd ac bd' ac' size fc w w' names Sz W W' Sv Sv' F. unfold gost12sum_generate.
  rewrite (gen_loop12_spec bd ac size w fc Sz W Sv). split.
  - cbn [orb]. rewrite <- readable_all. destruct (Nat.eqb_spec (length (readable fc names)) (length names)); cbn [negb]; split; intros; auto; congruence.
  - set (l := map (fun e => Entry (fst e) (snd e)) (entries (text12 size) fc names)).
    assert (R : render (entries (text12 size) fc names) = render12 l).
    { subst l. unfold render, render12. generalize (entries (text12 size) fc names). intros es. induction es as [|[h n] es IH]; [reflexivity|].
      cbn [flat_map map fst snd line_text]. rewrite IH, <- !app_assoc. reflexivity. }
    rewrite R. rewrite C45_gost12sum_check; [|exact W'|].
    + subst l. rewrite (judge12_entries size w' fc names Sz) by (auto; intros k n c; apply content_bytes; exact W'). rewrite all_ok_map. reflexivity.
    + subst l. apply Forall_forall. intros i Hi. apply in_map_iff in Hi as (e & <- & He). unfold entries in He. apply in_map_iff in He as (n & <- & Hn).
      apply readable_in in Hn as [Hn Hc]. destruct (fc n) as [c|] eqn:E; [|congruence]. cbn [fst snd].
      assert (B : bytes c) by (apply (content_bytes w 0 n c W); rewrite (Sv 0%nat n); exact E). destruct (text12_spec size c Sz B) as [L T].
      rewrite Forall_forall in F. destruct (F n Hn) as (P1 & P2 & P3 & P4).
      split; [cbn [line_text]; rewrite !app_length, L; cbn [length]; destruct Sz as [-> | ->]; lia|].
      split; [rewrite L; destruct Sz as [-> | ->]; [left|right]; reflexivity|].
      split; [eapply Forall_impl; [|exact T]; intros a [H _]; exact H|]. auto.
Qed.
Print Assumptions C45_gost12sum_round_trip.
(** Option -x: the names read from standard input, one per line, are the names hashed. *)
Theorem C45_gost12sum_x :
  forall bd ac size w names, Forall (plain_name (N.to_nat 4094)) names ->
    gost12sum_x bd ac size w (flat_map (fun n => n ++ [10]) names) = Some (gost12sum_generate bd ac size w names).
Proof.
  intros bd ac size w names F. unfold gost12sum_x, gost12sum_generate.
  assert (G : forall fuel, (length names < fuel)%nat -> read_names fuel (flat_map (fun n => n ++ [10]) names) = Some names).
  { induction F as [|n names (P1 & P2 & P3 & P4) F IH]; intros fuel Hf; (destruct fuel as [|fuel]; [cbn in Hf; lia|]); [reflexivity|].
    cbn [read_names flat_map]. rewrite <- app_assoc. cbn [app]. rewrite fgets_name by (auto; unfold path_limit, PATH_MAX; lia).
    rewrite cstr_plain, strip_name by auto. destruct n as [|a n]; [congruence|]. rewrite IH by (cbn in Hf; lia). reflexivity. }
  rewrite G; [reflexivity|]. clear. assert (L : (length names <= length (flat_map (fun n => n ++ [10%N]) names))%nat); [|lia].
  induction names as [|n names IH]; [reflexivity|]. cbn [flat_map length]. rewrite !app_length. cbn [length]. lia.
Qed.
(** A concrete case: one file "a", read in two portions; the list with its true digest is accepted, and rejected once the
    file is gone. *)
Example C45_example :
  let l := [(text94 false [1; 2], [97])] in
  let w : world := fun _ _ => Some (mk_opened [[1]; [2]] false) in
  let gone : world := fun _ _ => None in
  world_ok w /\ world_ok gone /\ Forall entry94 l /\
  gostsum_check ctx0 false w (render l) = Exited 0 [([97], V_ok)] /\
  gostsum_check ctx0 false gone (render l) = Exited 1 [([97], V_cannot_process)].
Proof.
  cbv zeta. assert (B : bytes [1; 2]) by (repeat constructor).
  assert (W : world_ok (fun _ _ => Some (mk_opened [[1]; [2]] false))) by (intros k n o E; injection E as <-; split; [repeat constructor|reflexivity]).
  assert (W' : world_ok (fun _ _ => None)) by (intros k n o E; discriminate E).
  assert (F : Forall entry94 [(text94 false [1; 2], [97])]).
  { constructor; [|constructor]. split; [apply text94_length; exact B|]. split.
    - cbn [fst]. eapply Forall_impl; [|apply text94_lower; exact B]. intros a [H _]. exact H.
    - split; [discriminate|]. split; [constructor; [split; discriminate|constructor]|]. split; [cbn; discriminate|cbn [snd length]; lia]. }
  assert (M : malformed94 nil) by (left; cbn; lia).
  split; [exact W|]. split; [exact W'|]. split; [exact F|]. split.
  - pose proof (C45_gostsum_check ctx0 false _ _ nil W F M) as Q. cbv zeta in Q. rewrite app_nil_r in Q. rewrite Q. clear.
    assert (J : judge (text94 false) (Some (mk_opened [[1]; [2]] false)) (text94 false [1; 2]) = V_ok) by (apply judge_ok; exists [1; 2]; auto).
    cbn [judge_all]. rewrite J. reflexivity.
  - pose proof (C45_gostsum_check ctx0 false _ _ nil W' F M) as Q. cbv zeta in Q. rewrite app_nil_r in Q. rewrite Q. reflexivity.
Qed.
