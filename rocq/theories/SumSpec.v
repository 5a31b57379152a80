(** Specification of the checksum tools: what a list of checksums is, and what checking it ought to report.  It uses the
    hash functions of the standards (Hash94Spec, StreebogSpec) and the operating system of SumModel only. *)
From Verif Require Import Bytes Gost89Sboxes Gost89Spec Hash94Spec StreebogSpec SumModel.
Open Scope N_scope.

(** The content of a file that can be opened and read to its end. *)
Definition content_of (o : option opened) : option (list N) :=
  match o with Some o => if o_error o then None else Some (concat (o_chunks o)) | None => None end.
(** Files deliver bytes, fewer than 2^60. *)
Definition world_ok (w : world) : Prop :=
  forall k n o, w k n = Some o -> Forall bytes (o_chunks o) /\ N.of_nat (length (concat (o_chunks o))) < 2 ^ 60.
(** The text of a digest: two lower case hexadecimal digits per byte. *)
Definition lower_hex : list N := [48;49;50;51;52;53;54;55;56;57;97;98;99;100;101;102].
Definition hex_text (l : list N) : list N := flat_map (fun b => [nth (N.to_nat (b / 16)) lower_hex 0; nth (N.to_nat (b mod 16)) lower_hex 0]) l.
Definition text94 (test : bool) (c : list N) : list N := hex_text (rev (hash94 (sboxes_of (sum_sbox test)) c)).
Definition text12 (size : N) (c : list N) : list N := hex_text (if size =? 64 then streebog512 c else streebog256 c).

(** A list of checksums: lines "digest name". *)
Definition render (l : list (list N * list N)) : list N := flat_map (fun e => fst e ++ [32] ++ snd e ++ [10]) l.
(** Names a line can carry: not empty, no NUL and no newline, not ending in a carriage return, not too long. *)
Definition plain_name (limit : nat) (n : list N) : Prop :=
  n <> nil /\ Forall (fun c => c <> 0 /\ c <> 10) n /\ last n 0 <> 13 /\ (length n <= limit)%nat.
(** A hexadecimal digit, upper or lower case. *)
Definition hex_char (c : N) : Prop := 48 <= c <= 57 \/ 65 <= c <= 70 \/ 97 <= c <= 102.

(** The verdict a line deserves: [digest] is the text of the true digest of a content. *)
Definition judge (digest : list N -> list N) (o : option opened) (h : list N) : verdict :=
  match content_of o with
  | None => V_cannot_process
  | Some c => if eqbl (digest c) h then V_ok else V_failed
  end.
Fixpoint judge_all (digest : list N -> list N -> list N) (w : world) (k : nat) (l : list (list N * list N)) : list (list N * verdict) :=
  match l with
  | nil => nil
  | (h, n) :: l => (n, judge (digest h) (w k n) h) :: judge_all digest w (S k) l
  end.
Definition all_ok (v : list (list N * verdict)) : bool := forallb (fun e => match snd e with V_ok => true | _ => false end) v.
