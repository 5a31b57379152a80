(** C60: objects holding keys.  The model is PkeyObjModel.v, what the calls are specified to do PkeyObjSpec.v. *)
From Coq Require Import String Ascii ZArith List Bool Lia Znumtheory.
From Verif Require Import Bytes BytesProofs EcLadderModel EcSpec EcModel EcLadderProofs EcProofs ToyGroup ParamsModel AmethModel PropAmeth
  PkeyObjModel PkeyObjSpec PkeyObjProofs.
Import ListNotations.
Local Open Scope Z_scope.

(** * Every history *)
(** A program that creates, generates, imports, exports, compares, prints, checks and completes any number of
    objects, in any order, gets at each call the reply of the specification. *)
Theorem C60_histories :
  forall lib, sets_ok lib -> forall l, all_allowed lib [] l -> snd (run lib [] l) = snd (history lib [] l).
Proof. intros lib SO l A. destruct (run_rep lib SO l [] (Forall_nil _) A) as [_ R]. change (@nil object) with (map (rep lib) []). rewrite R. reflexivity. Qed.

Lemma history_app lib l1 l2 s : history lib s (l1 ++ l2) =
  (fst (history lib (fst (history lib s l1)) l2), snd (history lib s l1) ++ snd (history lib (fst (history lib s l1)) l2)).
Proof.
  revert s. induction l1 as [|q l1 IH]; intros s; cbn [app history fst snd].
  - destruct (history lib s l2); reflexivity.
  - destruct (does lib s q) as [s' r]. rewrite IH. destruct (history lib s' l1). reflexivity.
Qed.
Lemma allowed_app lib l1 l2 s : all_allowed lib s (l1 ++ l2) <-> all_allowed lib s l1 /\ all_allowed lib (fst (history lib s l1)) l2.
Proof.
  revert s. induction l1 as [|q l1 IH]; intros s; cbn [app all_allowed history fst].
  - tauto.
  - rewrite IH. destruct (does lib s q) as [s' r]. cbn [fst]. destruct (history lib s' l1). cbn [fst]. tauto.
Qed.

(** * Consequences *)
(** [after lib l] are the keys the program holds after [l]. *)
Definition after (lib : curve_nid -> option curve) (l : list call) : keys := fst (history lib [] l).
Definition in_order (lib : curve_nid -> option curve) (c : curve_nid) (d : Z) : Prop :=
  match lib c with Some C => 0 < d < order (cv C) | None => False end.
(** The reply to one more call. *)
Definition next_reply (lib : curve_nid -> option curve) (l : list call) (q : call) : option reply :=
  nth_error (snd (run lib [] (l ++ [q]))) (length l).
Lemma history_length lib l : forall s, length (snd (history lib s l)) = length l.
Proof.
  induction l as [|q l IH]; intros s; cbn [history]; [reflexivity|]. destruct (does lib s q) as [s' r]. specialize (IH s').
  destruct (history lib s' l). cbn [snd length] in *. congruence.
Qed.
Lemma next_is lib l q : sets_ok lib -> all_allowed lib [] (l ++ [q]) ->
  next_reply lib l q = Some (snd (does lib (after lib l) q)).
Proof.
  intros SO A. unfold next_reply. rewrite (C60_histories lib SO _ A), history_app. cbn [snd].
  rewrite nth_error_app2 by (rewrite history_length; lia). rewrite history_length, Nat.sub_diag. cbn [history].
  unfold after. destruct (does lib (fst (history lib [] l)) q) as [s' r]. reflexivity.
Qed.

(** Two objects that hold key pairs are equal exactly if they are of one algorithm, one parameter set and one
    private number. *)
Theorem C60_equal_pairs :
  forall lib, sets_ok lib -> forall l, all_allowed lib [] l -> forall i j a c d a' c' d', i <> j ->
    nth_error (after lib l) i = Some (K_pair a c d) -> nth_error (after lib l) j = Some (K_pair a' c' d') ->
    in_order lib c d -> in_order lib c' d' ->
    (next_reply lib l (Equal i j) = Some (R_int 1) <-> a = a' /\ c = c' /\ d = d').
Proof.
  intros lib SO l A i j a c d a' c' d' N Hi Hj D D'. rewrite next_is; [|exact SO|apply allowed_app; split; [exact A|split; exact I]].
  cbn [does]. unfold with1. rewrite Hi, Hj. cbn [snd].
  rewrite (proj2 (Nat.eqb_neq i j) N). unfold same_key, same_params. cbn [key_type key_set key_point].
  destruct (type_dec (Some a) (Some a')) as [Ea|Ea].
  2:{ split; [discriminate|]. intros (-> & _). congruence. }
  injection Ea as <-. unfold same at 1. destruct (nid_dec c c') as [<-|Ec].
  2:{ split; [discriminate|]. intros (_ & -> & _). congruence. }
  unfold same, in_order, multiple in *. destruct (lib c) as [C|] eqn:E; [|contradiction].
  pose proof (lib_laws lib SO c C E) as L.
  destruct (xy_dec _ _) as [X|X].
  2:{ split; [discriminate|]. intros (_ & _ & ->). congruence. }
  split; [|reflexivity]. intros _. repeat split.
  destruct (affine (cv C) (smul d (gen (cv C)))) as [[x y]|] eqn:Af.
  - symmetry in X. pose proof (proj2 (proj2 (proj2 (proj2 SO c C E))) _ _ _ Af) as L1.
    pose proof (proj2 (proj2 (proj2 (proj2 SO c C E))) _ _ _ X) as L2. rewrite L1 in L2. injection L2 as L2.
    apply (gen_inj (cv C) L) in L2. rewrite !Z.mod_small in L2 by lia. exact L2.
  - apply (l_affine (cv C) L) in Af. apply (gen_zero (cv C) L) in Af. rewrite Z.mod_small in Af; lia.
Qed.

(** EVP_PKEY_check accepts every generated key, of imported private numbers exactly those from 1 to the order
    less one, and of imported points exactly those of the prime order. *)
Theorem C60_check :
  forall lib, sets_ok lib -> forall l, all_allowed lib [] l -> forall a c C, lib c = Some C -> a <> A_other ->
    (forall draws, fair lib a (Some c) (Some draws) ->
       next_reply lib (l ++ [Generate a (Some c) (Some draws)]) (Check (length (after lib l))) = Some (R_int 1)) /\
    (forall d, 0 <= d -> scalar_fits c d = true ->
       (next_reply lib (l ++ [Import_private a c d]) (Check (length (after lib l))) = Some (R_int 1) <->
        d < order (cv C) /\ d <> 0)) /\
    (forall P X Y, 0 <= X -> 0 <= Y -> affine (cv C) P = Some (X, Y) ->
       (next_reply lib (l ++ [Import_public a c X Y]) (Check (length (after lib l))) = Some (R_int 1) <->
        smul (order (cv C)) P = pzero (cv C))).
Proof.
  intros lib SO l A a c C E NA. pose proof (lib_laws lib SO c C E) as L.
  assert (SA : supported a = true) by (destruct a; try reflexivity; congruence).
  assert (Step : forall q k, allowed lib (after lib l) q -> does lib (after lib l) q = (after lib l ++ [k], R_int 1) ->
    next_reply lib (l ++ [q]) (Check (length (after lib l))) = Some (R_int (if valid lib k then 1 else 0))).
  { intros q k Aq Dq. assert (AF : after lib (l ++ [q]) = after lib l ++ [k]).
    { unfold after in *. rewrite history_app. cbn [fst history]. rewrite Dq. reflexivity. }
    rewrite next_is; [|exact SO|].
    - rewrite AF. cbn [does]. unfold with1. rewrite nth_error_app2 by lia. rewrite Nat.sub_diag. reflexivity.
    - apply allowed_app. split; [|split; exact I]. apply allowed_app. split; [exact A|]. split; [exact Aq|exact I]. }
  split; [|split].
  - intros draws F. pose proof F as [_ [_ F']]. rewrite E in F'. destruct F' as [R NZ].
    destruct (first_nonzero draws) as [d|] eqn:FN; [|congruence].
    rewrite (Step _ (K_pair a c d)).
    + cbn [valid]. rewrite E. unfold first_nonzero in FN. apply find_some in FN as [I N].
      rewrite Forall_forall in R. apply R in I. apply negb_true_iff, Z.eqb_neq in N.
      rewrite (proj2 (Z.ltb_lt 0 d)), (proj2 (Z.ltb_lt d _)) by lia. reflexivity.
    + exact F.
    + cbn [does]. unfold made, generated, known. rewrite SA, E. cbn [andb]. rewrite FN. reflexivity.
  - intros d D F. rewrite (Step _ (K_pair a c d)).
    + cbn [valid]. rewrite E. destruct (Z.ltb_spec 0 d), (Z.ltb_spec d (order (cv C))); cbn [andb];
        split; intros H1; try reflexivity; try discriminate H1; lia.
    + exact D.
    + cbn [does]. unfold made, known. rewrite SA, E, F. reflexivity.
  - intros P X Y HX HY Af. pose proof (proj2 (proj2 (proj2 (proj2 SO c C E))) _ _ _ Af) as LF.
    rewrite (Step _ (K_public a c (X, Y))).
    + cbn [valid]. rewrite E, LF. destruct (xy_dec _ None) as [Z|Z].
      * split; [|reflexivity]. intros _. apply (l_affine (cv C) L). exact Z.
      * split; [discriminate|]. intros H. apply (l_affine (cv C) L) in H. contradiction.
    + split; assumption.
    + cbn [does]. rewrite E, SA, LF, Af. reflexivity.
Qed.

(** When EVP_PKEY_copy_parameters says yes the two objects have the same parameters. *)
Theorem C60_copied_parameters_equal :
  forall lib, sets_ok lib -> forall l, all_allowed lib [] l -> forall i j,
    (i < length (after lib l))%nat ->
    next_reply lib l (Copy_params i j) = Some (R_int 1) ->
    next_reply lib (l ++ [Copy_params i j]) (Params_equal i j) = Some (R_int 1).
Proof.
  intros lib SO l A i j Li H.
  assert (A1 : all_allowed lib [] (l ++ [Copy_params i j])) by (apply allowed_app; split; [exact A|split; exact I]).
  rewrite next_is in H by assumption. rewrite next_is; [|exact SO|apply allowed_app; split; [exact A1|split; exact I]].
  unfold after in *. rewrite history_app. cbn [fst history].
  set (s := fst (history lib [] l)) in *. clearbody s. cbn [does] in *. unfold with1 in *.
  destruct (nth_error s i) as [to|] eqn:Ei; [|discriminate H]. destruct (nth_error s j) as [from|] eqn:Ej; [|discriminate H].
  assert (C : fst (copied to from) = 1 -> same_params (snd (copied to from)) from = 1 /\ (i = j -> snd (copied to from) = from)).
  { unfold copied. destruct (key_type from) as [a|] eqn:T; [|discriminate]. cbv zeta.
    set (to1 := match to with K_blank => K_typed a | k => k end). 
    assert (KE : i = j -> to1 = from).
    { intros ->. rewrite Ei in Ej. injection Ej as ->. subst to1. destruct from; try reflexivity. discriminate T. }
    clearbody to1.
    destruct (key_set from) as [c|] eqn:KS; [|discriminate].
    destruct to1 as [|b|b c1|b c1 xy|b c1 d1] eqn:Q; cbn [fst snd].
    1, 3, 4, 5: match goal with |- context [Z.eq_dec ?x 1] => destruct (Z.eq_dec x 1) end; [auto|discriminate].
    destruct (alg_dec a b) as [<-|]; [|discriminate]. cbn [fst snd]. intros _. split.
    - unfold same_params. cbn [key_type key_set]. rewrite T, KS. destruct (type_dec _ _); [|congruence].
      unfold same. destruct (nid_dec c c); congruence.
    - intros EQ. rewrite <- (KE EQ) in KS. discriminate KS. }
  destruct (copied to from) as [r k] eqn:CP. cbn [snd fst] in *. injection H as ->. destruct (C eq_refl) as [S I].
  assert (PI : forall (s : keys) i k, (i < length s)%nat -> nth_error (put s i k) i = Some k).
  { intros s0. induction s0 as [|x s0 IH]; intros [|n] k0 Hl; cbn in *; try lia; [reflexivity|]. apply IH. lia. }
  assert (PJ : forall (s : keys) i j k, i <> j -> nth_error (put s i k) j = nth_error s j).
  { intros s0. induction s0 as [|x s0 IH]; intros [|n] [|m] k0 Hl; cbn; try reflexivity; try congruence. apply IH. congruence. }
  rewrite PI by exact Li. destruct (Nat.eq_dec i j) as [<-|NE].
  - rewrite PI by exact Li. cbn [snd]. rewrite (I eq_refl) in *. rewrite S. reflexivity.
  - rewrite (PJ s i j k NE), Ej. cbn [snd]. rewrite S. reflexivity.
Qed.

(** What is printed for a number can be read back. *)
Lemma hexdigit_char d : 0 <= d < 16 -> hexdigit (hex_char d) = Some d.
Proof.
  intros H. assert (d = 0 \/ d = 1 \/ d = 2 \/ d = 3 \/ d = 4 \/ d = 5 \/ d = 6 \/ d = 7 \/ d = 8 \/ d = 9 \/ d = 10 \/ d = 11
    \/ d = 12 \/ d = 13 \/ d = 14 \/ d = 15) as K by lia.
  repeat (destruct K as [-> | K]; [reflexivity|]). subst. reflexivity.
Qed.
Lemma hex_digits_back f : forall z acc, 0 <= z < 16 ^ Z.of_nat f -> hex2bn (hex_digits f z acc) 0 = hex2bn acc z.
Proof.
  induction f as [|f IH]; intros z acc H; cbn [hex_digits].
  - cbn in H. replace z with 0 by lia. reflexivity.
  - destruct (Z.eqb_spec z 0) as [->|N]; [reflexivity|].
    rewrite Nat2Z.inj_succ, Z.pow_succ_r in H by lia.
    rewrite IH.
    + cbn [hex2bn]. rewrite hexdigit_char by (apply Z.mod_pos_bound; lia). f_equal. pose proof (Z.div_mod z 16). lia.
    + split; [apply Z.div_pos; lia|]. apply Z.div_lt_upper_bound; lia.
Qed.
Theorem C60_printed_number_reads_back : forall z, 0 <= z -> hex2bn (BN_print z) 0 = z.
Proof.
  intros z H. unfold BN_print. destruct (Z.eqb_spec z 0) as [->|N]; [reflexivity|].
  destruct (Z.ltb_spec z 0); [lia|]. cbn [append]. rewrite Z.abs_eq by lia. rewrite hex_digits_back; [reflexivity|].
  split; [lia|]. rewrite Nat2Z.inj_succ, Z2Nat.id by apply Z.log2_nonneg.
  eapply Z.lt_le_trans; [apply Z.log2_spec; lia|]. apply Z.pow_le_mono_l. lia.
Qed.

(** The size of a key is the length of its signatures. *)
Theorem C60_size_is_the_signature_length :
  forall C a key tbs draws sig ec, pkey_gost_ec_cp_sign C a key tbs draws = Returns (Some sig) ->
    Z.of_nat (length sig) = EVP_PKEY_size (mk_obj (Some a) ec).
Proof.
  intros C a key tbs draws sig ec H. unfold pkey_gost_ec_cp_sign in H.
  destruct (sig_size a) as [n|] eqn:Sz; [|discriminate H].
  destruct (gost_ec_sign C tbs key draws) as [[[r s]|]|]; try discriminate H.
  apply (f_equal (fun o => match o with Returns (Some x) => x | _ => [] end)) in H. subst sig.
  assert (SB : forall bn old len, length old = len -> length (snd (store_bignum bn old len)) = len).
  { intros bn old len Ho. unfold store_bignum. destruct (Nat.ltb_spec len (num_bytes bn)); [exact Ho|]. cbn [snd].
    rewrite app_length, n2be_length. unfold zeros. rewrite repeat_length. lia. }
  unfold pack_sign_cp. rewrite app_length, !SB.
  - destruct a; cbn in Sz; try discriminate Sz; injection Sz as <-; reflexivity.
  - rewrite skipn_length. unfold zeros. rewrite repeat_length. lia.
  - rewrite firstn_length. unfold zeros. rewrite repeat_length. lia.
Qed.

(** * What the specification would not have *)
(** When the random generator fails, key generation still returns 1: the object has parameters and no key.
    The program learns it when it prints, checks or uses the key. *)
Theorem C60_generation_ignores_the_generator_refuted :
  forall lib, sets_ok lib -> forall s a c, a = A2001 \/ (a = A2012_256 /\ own_set a c) \/ (a = A2012_512 /\ own_set a c) ->
  lib c <> None -> forall draws, first_nonzero draws = None ->
    let '(s', r) := perform lib s (Generate a (Some c) (Some draws)) in
    r = R_int 1 /\ exists o, s' = s ++ [o] /\ o_type o = Some a /\ gost_get0_priv_key o = None /\
      EVP_PKEY_missing_parameters o = 0 /\ EVP_PKEY_check lib o = 0 /\ EVP_PKEY_eq o o = 0.
Proof.
  intros lib SO s a c Ha K draws FN. destruct (lib c) as [C|] eqn:E; [|congruence]. clear K.
  assert (NO : c <> OtherNid) by (intros ->; rewrite (proj1 SO) in E; discriminate).
  assert (Fi : fill_params lib EC_KEY_new c = (1, mk_ec (Some c) None None)).
  { unfold fill_params. rewrite E, (lib_name lib SO c C E). reflexivity. }
  assert (KG : keygen lib draws (mk_ec (Some c) None None) = (0, mk_ec (Some c) None None)).
  { unfold keygen, on_group. cbn [e_group e_priv e_pub]. rewrite E. unfold gost_ec_keygen.
    rewrite keygen_first, FN. reflexivity. }
  assert (G : generate lib a (Some c) (Some draws) = (1, mk_obj (Some a) (Some (mk_ec (Some c) None None)))).
  { destruct Ha as [-> |[[-> O]|[-> O]]]; cbn [generate];
      unfold pkey_gost2001cp_keygen, pkey_gost2012cp_keygen, pkey_gost2001_paramgen, pkey_gost2012_paramgen; rewrite Fi;
      [|destruct c; cbn [own_set] in O; try contradiction; try congruence..];
      cbn [paramgen_type EVP_PKEY_assign EVP_PKEY_set_type o_type]; unfold with_keys; cbn [o_ec o_type]; rewrite KG; reflexivity. }
  cbn [perform]. rewrite G. cbn [keep]. split; [reflexivity|].
  exists (mk_obj (Some a) (Some (mk_ec (Some c) None None))). split; [reflexivity|].
  destruct Ha as [-> |[[-> O]|[-> O]]]; (repeat split; try reflexivity);
    unfold EVP_PKEY_eq; cbn; rewrite nid_eqb_refl; reflexivity.
Qed.
(** A key generated for the algorithm 2001DH is of the algorithm 2001; the same with parameters that are read.
    So a key and the parameters written for it do not belong together any more. *)
Theorem C60_2001DH_becomes_2001_refuted :
  forall lib, sets_ok lib -> forall s c, lib c <> None ->
    (forall draws, exists o, perform lib s (Generate A2001DH (Some c) draws) = (s ++ [o], R_int 1) /\ o_type o = Some A2001) /\
    exists o, perform lib s (Import_params A2001DH c) = (s ++ [o], R_int 1) /\ o_type o = Some A2001 /\
      forall d, EVP_PKEY_copy_parameters lib (rep lib (K_pair A2001DH c d)) o = (0, rep lib (K_pair A2001DH c d)) /\
        EVP_PKEY_parameters_eq (rep lib (K_pair A2001DH c d)) o = -1.
Proof.
  intros lib SO s c K. destruct (lib c) as [C|] eqn:E; [|congruence]. clear K.
  assert (Fi : fill_params lib EC_KEY_new c = (1, mk_ec (Some c) None None)).
  { unfold fill_params. rewrite E, (lib_name lib SO c C E). reflexivity. }
  split.
  - intros [l|]; cbn [perform generate]; unfold pkey_gost2001cp_keygen, pkey_gost2001_paramgen; rewrite Fi;
      cbn [EVP_PKEY_assign EVP_PKEY_set_type o_type with_keys o_ec keep]; eexists; split; reflexivity.
  - cbn [perform]. unfold d2i_KeyParams. cbn [blank o_type type_eqb EVP_PKEY_set_type]. unfold gost2001_param_decode, gost_decode_nid_params.
    cbn [o_ec EVP_PKEY_assign EVP_PKEY_set_type o_type]. rewrite Fi. cbn [keep].
    eexists. split; [reflexivity|]. split; [reflexivity|]. intros d. split; reflexivity.
Qed.
(** The algorithm of a generated 2012 key is chosen by the set, not by the algorithm that was asked for. *)
Theorem C60_algorithm_follows_the_set_refuted :
  forall lib, sets_ok lib -> forall s,
    (lib Tc512_A <> None -> exists o, perform lib s (Generate A2012_256 (Some Tc512_A) None) = (s ++ [o], R_int 1) /\ o_type o = Some A2012_512) /\
    (lib Tc256_A <> None -> exists o, perform lib s (Generate A2012_512 (Some Tc256_A) None) = (s ++ [o], R_int 1) /\ o_type o = Some A2012_256).
Proof.
  intros lib SO s. split; intros K;
    (match type of K with lib ?c <> None => destruct (lib c) as [C|] eqn:E; [|congruence];
      assert (Fi : fill_params lib EC_KEY_new c = (1, mk_ec (Some c) None None))
        by (unfold fill_params; rewrite E, (lib_name lib SO c C E); reflexivity) end);
    cbn [perform generate]; unfold pkey_gost2012_paramgen; rewrite Fi; eexists; split; reflexivity.
Qed.
(** Writing the parameters of a 2001 or 2001DH object that has none reads a null pointer. *)
Theorem C60_writing_missing_parameters_dies_refuted :
  forall lib a, a = A2001 \/ a = A2001DH ->
    snd (run lib [] [New; Set_type 0 a; Export_params 0]) = [R_int 1; R_int 1; Died].
Proof. intros lib a [-> | ->]; reflexivity. Qed.
(** One curve under two names makes two different keys: the parameter set 2012-256-B is CryptoPro-A. *)
Theorem C60_aliases_differ_refuted :
  forall lib, sets_ok lib -> forall d,
    gost_nid2params Tc256_B = gost_nid2params CryptoPro_A /\
    EVP_PKEY_parameters_eq (rep lib (K_pair A2012_256 Tc256_B d)) (rep lib (K_pair A2012_256 CryptoPro_A d)) = 0 /\
    EVP_PKEY_eq (rep lib (K_pair A2012_256 Tc256_B d)) (rep lib (K_pair A2012_256 CryptoPro_A d)) = 0.
Proof. intros lib SO d. repeat split; reflexivity. Qed.
(** d2i_KeyParams into an object that has a key replaces the set only: the old numbers stay, on the wrong curve.
    It returns 1; printing the public key and checking it then fail. *)
Theorem C60_parameters_replaced_under_a_key_refuted :
  forall lib, sets_ok lib -> forall c c' d, lib c' <> None -> c <> c' ->
    exists o, d2i_KeyParams lib A2001 (Some (rep lib (K_pair A2001 c d))) c' = (1, o) /\
      gost_get0_priv_key o = Some d /\ i2d_KeyParams o = R_set c' /\
      EVP_PKEY_check lib o = 0 /\ (forall n, EVP_PKEY_print o n 1 = (0, ""%string)) /\ EVP_PKEY_eq o o = 0.
Proof.
  intros lib SO c c' d K N. destruct (lib c') as [C|] eqn:E; [|congruence].
  unfold d2i_KeyParams. cbn [rep o_type type_eqb alg_eqb]. unfold gost2001_param_decode, gost_decode_nid_params.
  cbn [o_ec]. unfold fill_params. rewrite E, (lib_name lib SO c' C E). cbn [e_priv e_pub o_type].
  eexists. split; [reflexivity|]. split; [reflexivity|]. split; [reflexivity|].
  assert (NE : curve_nid_eqb c c' = false) by (rewrite nid_eqb_dec; destruct (nid_dec c c'); [contradiction|reflexivity]).
  split; [|split].
  - unfold EVP_PKEY_check, context_set, pkey_gost_check. cbn [o_ec o_type e_group e_pub p_curve]. rewrite NE, E. reflexivity.
  - intros n. unfold EVP_PKEY_print, print_gost_ec, print_gost_ec_pub. cbn [o_type o_ec e_group e_pub p_curve Z.eqb Z.leb Z.compare]. 
    rewrite NE. reflexivity.
  - unfold EVP_PKEY_eq. cbn [o_type type_eqb alg_eqb negb param_cmp_gost_ec o_ec e_group]. rewrite nid_eqb_refl. cbv zeta.
    unfold pub_cmp_gost_ec. cbn [o_ec e_pub e_group Z.leb Z.compare EC_POINT_cmp p_curve]. rewrite NE. reflexivity.
Qed.
(** The security of a key is announced as the length of its modulus, twice what the best known attack on a
    group of that order leaves. *)
Theorem C60_security_bits_refuted :
  forall lib k, good lib k ->
    EVP_PKEY_security_bits (rep lib k) =
    match key_type k with None => 0 | Some A2012_512 => 512 | Some _ => 256 end.
Proof. intros lib k G. exact (bits_rep lib k G). Qed.

(** * Instances *)
Definition toy_lib (n : curve_nid) : option curve := match n with OtherNid => None | _ => Some (toy_curve n) end.
Lemma toy_sets_ok : sets_ok toy_lib.
Proof.
  split; [reflexivity|]. intros n C E. assert (C = toy_curve n) by (destruct n; cbn [toy_lib] in E; congruence). subst C.
  destruct (toy_lift_ok n) as (P79 & LI & RA). split; [reflexivity|]. split; [apply toy_laws|]. split.
  - intros x y P H. cbn [toy_curve lift cv] in *. cbn [toy affine] in *. unfold toy_lift in H. unfold toy_affine.
    pose proof (toy_n_pos n). destruct (Z.ltb_spec 0 (y mod 79)), (Z.ltb_spec (y mod 79) (toy_n n)); cbn [andb] in H; try discriminate H.
    destruct (x mod 79 =? _); [|discriminate H]. injection H as <-. cbn [mkp proj1_sig]. rewrite Z.mod_small by lia.
    destruct (Z.eqb_spec (y mod 79) 0); [lia|discriminate].
  - intros P x y Af. pose proof (l_range (toy n true) (toy_laws n true) P x y Af). pose proof (RA P x y Af).
    apply LI; [lia..|]. rewrite !Z.mod_small by lia. exact Af.
Qed.
Local Open Scope string_scope.
Example C60_toy_history :
  let l := [New; Generate A2012_256 (Some Tc256_A) (Some [0; 7]%Z); Import_private A2012_256 Tc256_A 7;
            Equal 1 2; Copy_params 0 1; Missing 0; Params_equal 0 2; Equal 0 2; Check 1; Check 0; Size 1; Bits 1;
            Generate_like 0 (Some [3]%Z); Equal 3 1; Print 1 2 2; Print 0 1 0; Print 0 0 0; Import_private A2001 CryptoPro_A 25;
            Check 4; Export_params 4] in
  all_allowed toy_lib [] l /\
  snd (run toy_lib [] l) =
  [R_int 1; R_int 1; R_int 1; R_int 1; R_int 1; R_int 0; R_int 1; R_int 0; R_int 1; R_int 0; R_int 64; R_int 256;
   R_int 1; R_int 0;
   R_text (1, "  Private key: 7" ++ nl ++ "  Public key:" ++ nl ++ "     X:1B" ++ nl ++ "     Y:1C" ++ nl
              ++ "  Parameter set: GOST R 34.10-2012 (256 bit) ParamSet A" ++ nl);
   R_text (0, ""); R_text (1, "Parameters algorithm " ++ quote ++ "GOST R 34.10-2012 with 256 bit modulus" ++ quote ++ " unsupported" ++ nl);
   R_int 1; R_int 0; R_set CryptoPro_A].
Proof.
  split.
  - vm_compute. repeat split; try discriminate; repeat constructor; discriminate.
  - vm_compute. reflexivity.
Qed.
Print Assumptions C60_histories.
Print Assumptions C60_equal_pairs.
Print Assumptions C60_check.
Print Assumptions C60_copied_parameters_equal.
Print Assumptions C60_printed_number_reads_back.
Print Assumptions C60_size_is_the_signature_length.
Print Assumptions C60_generation_ignores_the_generator_refuted.
Print Assumptions C60_2001DH_becomes_2001_refuted.
Print Assumptions C60_algorithm_follows_the_set_refuted.
Print Assumptions C60_writing_missing_parameters_dies_refuted.
Print Assumptions C60_aliases_differ_refuted.
Print Assumptions C60_parameters_replaced_under_a_key_refuted.
Print Assumptions C60_security_bits_refuted.
Print Assumptions C60_toy_history.
