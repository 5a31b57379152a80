(** Properties C17 and C18: GOST R 34.11-94 (gosthash.c, gost_md.c). *)
From Coq Require Import String.
From Verif Require Import Bytes BytesProofs Gost89Model Gost89Sboxes Gost89Spec Gost89SpecProofs
  BlockLoop Hash94Model Hash94Spec Hash94Proofs PropGost89.

(** A history of calls on one hash context: updates, finishes and restarts. *)
Inductive hash_call := Update (data : list N) | Finish | Restart.
(** Running the calls on the model; the digests delivered, in order. *)
Fixpoint run_calls (x : hash_ctx) (l : list hash_call) : list (list N) :=
  match l with
  | nil => nil
  | Update d :: t => run_calls (hash_block x d) t
  | Finish :: t => let '(x', h) := finish_hash x in h :: run_calls x' t
  | Restart :: t => run_calls (start_hash x) t
  end.
(** What the calls ought to deliver: the standard's hash of all data since the last restart. *)
Fixpoint expect_calls (S : sboxes) (m : list N) (l : list hash_call) : list (list N) :=
  match l with
  | nil => nil
  | Update d :: t => expect_calls S (m ++ d) t
  | Finish :: t => hash94 S m :: expect_calls S m t
  | Restart :: t => expect_calls S nil t
  end.
(** The data given are bytes, and less than 2^60 of them (the C code counts bits in a signed
    64-bit integer). *)
Fixpoint calls_len (l : list hash_call) : N :=
  match l with Update d :: t => N.of_nat (List.length d) + calls_len t | _ :: t => calls_len t | nil => 0 end.
Definition calls_bytes (l : list hash_call) : Prop :=
  Forall (fun c => match c with Update d => bytes d | _ => True end) l.

Lemma restart_inv sb x m : subst_ok sb -> hinv sb x m -> hinv sb (start_hash x) nil.
Proof.
  intros Hs ([Ct CH CS CL CR CB] & _). split; [|split; reflexivity].
  constructor; try reflexivity; [exact Ct|exact CR|constructor].
Qed.

Lemma run_calls_expect sb : subst_ok sb -> forall l x m, bytes m -> calls_bytes l -> hinv sb x m ->
  N.of_nat (List.length m) + calls_len l < 2 ^ 60 ->
  run_calls x l = expect_calls (sboxes_of sb) m l.
Proof.
  intros Hs. induction l as [|[d| |] l IH]; intros x m Bm Bl I Hlen; [reflexivity|..].
  - apply Forall_cons_iff in Bl as [Bd Bl]. cbn [calls_len] in Hlen.
    cbn [run_calls expect_calls]. apply IH; [apply bytes_app; auto|exact Bl|apply hash_block_inv; auto|].
    rewrite app_length. lia.
  - apply Forall_cons_iff in Bl as [_ Bl]. cbn [calls_len] in Hlen. cbn [run_calls expect_calls].
    destruct (finish_hash_spec sb Hs x m Bm I) as [F1 F2].
    { change (2 ^ 60) with 1152921504606846976 in Hlen. lia. }
    destruct (finish_hash x) as [x' h]. cbn [fst snd] in *. subst h. f_equal. apply IH; auto.
  - apply Forall_cons_iff in Bl as [_ Bl]. cbn [calls_len] in Hlen. cbn [run_calls expect_calls].
    apply IH; [constructor|exact Bl|apply (restart_inv sb x m); auto|]. cbn [List.length]. lia.
Qed.

(** ** C17: any chunking gives the standard's hash *)
Theorem C17_hash94_chunks_match_standard :
  forall c sb chunks,
    subst_ok sb -> Forall bytes chunks -> N.of_nat (List.length (concat chunks)) < 2 ^ 60 ->
    snd (finish_hash (fold_left hash_block chunks (init_gost_hash_ctx c sb)))
    = hash94 (sboxes_of sb) (concat chunks).
Proof.
  intros c sb chunks Hs F Hlen.
  assert (G : forall cs x m, bytes m -> Forall bytes cs -> hinv sb x m ->
    bytes (m ++ concat cs) /\ hinv sb (fold_left hash_block cs x) (m ++ concat cs)).
  { induction cs as [|d cs IH]; intros x m Bm Fc I.
    - cbn [concat fold_left]. rewrite app_nil_r. auto.
    - apply Forall_cons_iff in Fc as [Bd Fc]. cbn [concat fold_left]. rewrite app_assoc. apply IH; auto.
      + apply bytes_app; auto.
      + apply hash_block_inv; auto. }
  destruct (G chunks (init_gost_hash_ctx c sb) nil) as [B I]; auto.
  { constructor. } { apply init_inv. }
  cbn [app] in *. apply finish_hash_spec; auto.
Qed.
Print Assumptions C17_hash94_chunks_match_standard.

(** The EVP digest md_gost94 (fixed CryptoPro S-box). *)
Theorem C17_md_gost94_chunks_match_standard :
  forall c chunks,
    Forall bytes chunks -> N.of_nat (List.length (concat chunks)) < 2 ^ 60 ->
    snd (finish_hash (fold_left hash_block chunks (gost_digest_init c)))
    = hash94 (sboxes_of GostR3411_94_CryptoProParamSet) (concat chunks).
Proof.
  intros c chunks F L. apply C17_hash94_chunks_match_standard; auto.
  pose proof all_subst_blocks_ok as A. rewrite Forall_forall in A. apply A. right. left. reflexivity.
Qed.
Print Assumptions C17_md_gost94_chunks_match_standard.

(** The step hash function alone, for all inputs. *)
Theorem C17_step_matches_standard :
  forall c sb H M, subst_ok sb -> List.length H = 32%nat -> bytes H -> List.length M = 32%nat -> bytes M ->
    snd (hash_step (gost_init c sb) H M) = chi (sboxes_of sb) M H.
Proof.
  intros c sb H M Hs LH BH LM BM.
  destruct (hash_step_spec (gost_init c sb) sb H M Hs (tables_of_init c sb)) as (c' & E & _);
    [split; auto|split; auto|]. rewrite E. reflexivity.
Qed.
Print Assumptions C17_step_matches_standard.

(** The bound is real: at 2^60 bytes the bit length wraps to a negative number and the length
    block is empty, while the standard's is 2^63. *)
Theorem C17_length_limit_refuted :
  finish_len_block (2 ^ 60) = zeros 32 /\ n2le 32 (8 * 2 ^ 60) <> zeros 32.
Proof. split; [vm_compute; reflexivity|vm_compute; discriminate]. Qed.
Print Assumptions C17_length_limit_refuted.

(** Known answers: the empty message (tcl_tests/dgst.try:89) and a message in two chunks, CryptoPro and
    test S-boxes (RFC 5831 examples for the latter, "This is message, length=32 bytes"). *)
Example C17_known_answers :
  snd (finish_hash (gost_digest_init ctx0))
    = hex "3f25bc1fbbce27ca10fb1958f319473ae7e17482c3b53ecf47a7e2de8aabe4c8" /\
  snd (finish_hash (fold_left hash_block [ascii_bytes "This is "; ascii_bytes "message, length=32 bytes"]
     (init_gost_hash_ctx ctx0 GostR3411_94_TestParamSet)))
    = hex "b1c466d37519b82e8319819ff32595e047a28cb6f83eff1c6916a815a637fffa" /\
  Forall bytes [ascii_bytes "This is "; ascii_bytes "message, length=32 bytes"].
Proof.
  split; [|split].
  - vm_compute. reflexivity.
  - vm_compute. reflexivity.
  - repeat constructor; unfold bytes; apply bytes_forallb; vm_compute; reflexivity.
Qed.

(** ** C18: finishing (or restarting) leaves the running state intact *)
Theorem C18_finish_leaves_running_state :
  forall c sb calls,
    subst_ok sb -> calls_bytes calls -> calls_len calls < 2 ^ 60 ->
    run_calls (init_gost_hash_ctx c sb) calls = expect_calls (sboxes_of sb) nil calls.
Proof.
  intros. apply run_calls_expect; auto; [constructor|apply init_inv].
Qed.
Print Assumptions C18_finish_leaves_running_state.

Example C18_nontrivial :
  let calls := [Update [1;2;3]; Finish; Update (zeros 40); Finish; Finish; Restart; Update [7]; Finish] in
  calls_bytes calls /\ calls_len calls < 2 ^ 60 /\
  List.length (run_calls (init_gost_hash_ctx ctx0 GostR3411_94_TestParamSet) calls) = 4%nat /\
  nth 0 (run_calls (init_gost_hash_ctx ctx0 GostR3411_94_TestParamSet) calls) nil
    <> nth 1 (run_calls (init_gost_hash_ctx ctx0 GostR3411_94_TestParamSet) calls) nil.
Proof.
  cbv zeta. split; [|split; [|split]].
  - repeat constructor; unfold bytes; apply bytes_forallb; vm_compute; reflexivity.
  - vm_compute. reflexivity.
  - vm_compute. reflexivity.
  - apply eqbl_neq. vm_compute. reflexivity.
Qed.
