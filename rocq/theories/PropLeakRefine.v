(** Property C62 continued: the programs whose traces leak nothing compute the multiples, so the statements are about programs that
    do the work.  A store is the state of the transcribed function; "Q" is its result. *)
From Coq Require Import String List ZArith Bool Lia Znumtheory.
From Verif Require Import Bytes BytesProofs EcLadderModel EcLadderProofs EcSpec EcProofs LeakModel LeakProofs LeakRefine LeakRefine2 LeakRefine3 PropLeak SmallCurve.
Import ListNotations.
Local Open Scope list_scope.
Local Open Scope Z_scope.

Notation result C p st := (pts (snd (exec C p st)) "Q"%string 0) (only parsing).

(** The transcriptions refine the ladder functions of the model, for all groups, scalars, points and shapes of digits. *)
Theorem C62_point_multiplication_refines :
  forall C s scalar P, (1 <= s_nd s)%nat -> result C (var_smul_rwnaf_prog s) (one_store C scalar P) = var_smul_rwnaf C s scalar P.
Proof. intros C s scalar P H. exact (var_smul_rwnaf_computes C s scalar P H). Qed.
Print Assumptions C62_point_multiplication_refines.
Theorem C62_generator_multiplication_refines :
  forall C s scalar P, (1 <= s_nd s)%nat -> result C (fixed_smul_cmb_prog s) (one_store C scalar P) = fixed_smul_cmb C s scalar.
Proof. intros C s scalar P H. exact (fixed_smul_cmb_computes C s scalar P H). Qed.
Print Assumptions C62_generator_multiplication_refines.

(** So on the group of a parameter set, with the file generated for it, the two programs compute the multiple of the point (times the cofactor)
    and of the generator by the number that the bytes of the secret encode, little-endian - and none of that number shows in the trace. *)
Theorem C62_multiples_without_leak :
  forall C f, ec_laws C -> file_of (gname C) = Some f ->
  let s := file_shape (wide C) f in
  exists tv tf, forall secret Q, bytes secret -> length secret = s_nb s ->
    let st := one_store C secret Q in let n := Z.of_N (le2n secret) in
    result C (var_smul_rwnaf_prog s) st = smul (cofactor C * n) Q /\ trace C (var_smul_rwnaf_prog s) st = tv /\
    result C (fixed_smul_cmb_prog s) st = smul n (gen C) /\ trace C (fixed_smul_cmb_prog s) st = tf.
Proof.
  intros C f L F s. destruct (C62_scalar_multiplication_leaks_nothing s) as (tv & tf & T). exists tv, tf. intros secret Q B N st n.
  pose proof (file_shape_ok (wide C) f) as K. fold s in K.
  assert (N1 : (1 <= s_nd s)%nat) by (destruct K as (_ & K & _); lia).
  destruct (T C secret Q) as [T1 T2]. unfold st.
  rewrite C62_point_multiplication_refines, C62_generator_multiplication_refines by exact N1.
  split; [|split; [exact T1|split; [|exact T2]]].
  - rewrite (var_smul_rwnaf_correct C (l_assoc C L) (l_comm C L) (l_zero C L) (l_neg C L) s secret Q K B N). f_equal. f_equal.
    rewrite (l_cofactor C L). unfold s. clear - F. destruct (gname C); cbn in F; try discriminate F; injection F as <-; destruct (wide C); reflexivity.
  - rewrite (fixed_smul_cmb_correct C (l_assoc C L) (l_comm C L) (l_zero C L) (l_neg C L) s secret K B N); [reflexivity|].
    exact (l_table C L f F).
Qed.
Print Assumptions C62_multiples_without_leak.

(** A curve over the field of 31 elements, with file A. *)
Example C62_multiples_demo w64 : ec_laws (w31 w64) /\ file_of (gname (w31 w64)) = Some F_A /\
  s_nb (file_shape (wide (w31 w64)) F_A) = 32%nat /\ smul 5 (gen (w31 w64)) <> smul 6 (gen (w31 w64)).
Proof.
  split; [apply w31_laws|]. split; [reflexivity|]. split; [destruct w64; reflexivity|].
  intros E. apply (f_equal (affine (w31 w64))) in E. destruct w64; vm_compute in E; discriminate E.
Qed.
