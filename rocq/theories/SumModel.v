(** Model of the command line tools gostsum.c and gost12sum.c: the check mode (-c), the generating mode and -x.
    The operating system is a parameter: what open and the successive reads of a file deliver. *)
From Verif Require Import Bytes Gost89Model Gost89Sboxes Hash94Model StreebogModel.
Open Scope N_scope.

(** * The operating system *)
(** One opened file, as its reads go: the chunks delivered by the successive successful [read] calls, then end of file
    ([false]) or a read error ([true]). *)
Record opened := mk_opened { o_chunks : list (list N); o_error : bool }.
(** What [open] gives at the k-th call of the run for a path; [None]: open fails.  Each call may deliver the data in other
    portions, or other data. *)
Definition world := nat -> list N -> option opened.

(** * C library pieces *)
Definition NL : N := 10. Definition CR : N := 13. Definition SP : N := 32.
(** PATH_MAX on Linux (limits.h). *)
Definition PATH_MAX : N := 4096.
(** fgets: at most [n] characters, up to and including the first newline; the rest of the stream. *)
Fixpoint take_line (n : nat) (f : list N) : list N * list N :=
  match n, f with
  | O, _ => (nil, f)
  | _, nil => (nil, nil)
  | S n', c :: f' => if c =? NL then ([c], f') else let '(l, r) := take_line n' f' in (c :: l, r)
  end.
Definition fgets (f : list N) : option (list N * list N) :=
  match f with nil => None | _ => Some (take_line (N.to_nat (PATH_MAX - 1)) f) end.
(** The C string in a buffer: up to the first NUL. *)
Fixpoint cstr (s : list N) : list N :=
  match s with nil => nil | c :: s' => if c =? 0 then nil else c :: cstr s' end.
(** The loops [while (s[--i] == '\n' || s[i] == '\r') s[i] = 0] (gostsum.c:210, gost12sum.c:264 and 184): what is left, with
    nothing left meaning that the loop went on to read in front of the string. *)
Fixpoint drop_eol (r : list N) : list N :=
  match r with nil => nil | c :: r' => if (c =? NL) || (c =? CR) then drop_eol r' else r end.
Definition strip (s : list N) : list N := rev (drop_eol (rev s)).
(** sprintf "%02x" *)
Definition hex_digit (d : N) : N := if d <? 10 then 48 + d else 87 + d.
Definition hex2 (b : N) : list N := [hex_digit (b / 16); hex_digit (b mod 16)].
Definition hexstr (l : list N) : list N := flat_map hex2 l.
(** The test of gostsum.c:199-200 and gost12sum.c:277-278 (a signed char above 127 is below '0'). *)
Definition is_hex_char (c : N) : bool :=
  negb ((c <? 48) || ((57 <? c) && (c <? 65)) || ((70 <? c) && (c <? 97)) || (102 <? c)).

(** * gostsum *)
(** gostsum.c:173-190 [hash_stream]: the context afterwards and the text, [None] for a read error. *)
Definition hash_stream (x : hash_ctx) (o : opened) : hash_ctx * option (list N) :=
  let x := fold_left hash_block (o_chunks o) (start_hash x) in
  if o_error o then (x, None) else let '(x, h) := finish_hash x in (x, Some (hexstr (rev h))).
(** gostsum.c:157-171 [hash_file] *)
Definition hash_file (x : hash_ctx) (o : option opened) : hash_ctx * option (list N) :=
  match o with None => (x, None) | Some o => hash_stream x o end.

Inductive line_result :=
  | Line (hash name rest : list N)
  | No_line                       (* get_line returns 0 *)
  | Bad_access.                   (* a NULL dereference or a read in front of the buffer *)
(** gostsum.c:192-213 [get_line] *)
Definition get_line (f : list N) : line_result :=
  if (length f <? 64)%nat then No_line
  else
    let hash := firstn 64 f in
    let f := skipn 64 f in
    if negb (forallb is_hex_char hash) then No_line
    else match f with
    | nil => No_line
    | c :: f =>
      if negb (c =? SP) then No_line
      else match fgets f with
      | None => Bad_access
      | Some (buf, rest) =>
        match strip (cstr buf) with
        | nil => Bad_access
        | name => Line hash name rest
        end
      end
    end.

Inductive verdict := V_ok | V_failed | V_cannot_process.
(** How a run ends: the exit code and the verdict about each file looked at, in order. *)
Inductive sum_result :=
  | Exited (code : Z) (verdicts : list (list N * verdict))
  | Undefined
  | Out_of_fuel.
Definition add_verdict (v : list N * verdict) (r : sum_result) : sum_result :=
  match r with Exited c l => Exited c (v :: l) | r => r end.

(** gostsum.c:98-130, the check loop; [failed]: failcount or errors is positive; [k] counts the opens. *)
Fixpoint check_loop (fuel : nat) (w : world) (k : nat) (x : hash_ctx) (f : list N) (failed : bool) : sum_result :=
  match fuel with
  | O => Out_of_fuel
  | S fuel' =>
    match get_line f with
    | No_line => Exited (if failed then 1 else 0) nil
    | Bad_access => Undefined
    | Line inhash name rest =>
      let '(x, r) := hash_file x (w k name) in
      match r with
      | None => add_verdict (name, V_cannot_process) (check_loop fuel' w (S k) x rest true)
      | Some calcsum =>
        if eqbl calcsum inhash
        then add_verdict (name, V_ok) (check_loop fuel' w (S k) x rest failed)
        else add_verdict (name, V_failed) (check_loop fuel' w (S k) x rest true)
      end
    end
  end.
(** gostsum.c:86-131: [gostsum -c file] with the check file opened; [test]: option -t; [c0]: the fresh cipher context. *)
Definition sum_sbox (test : bool) := if test then GostR3411_94_TestParamSet else GostR3411_94_CryptoProParamSet.
Definition gostsum_check (c0 : gost_ctx) (test : bool) (w : world) (f : list N) : sum_result :=
  check_loop (S (length f)) w 0 (init_gost_hash_ctx c0 (sum_sbox test)) f false.

(** gostsum.c:146-154: the generating mode; standard output and the exit code. *)
Fixpoint gen_loop (w : world) (k : nat) (x : hash_ctx) (names : list (list N)) (errors : bool) : list N * Z :=
  match names with
  | nil => (nil, if errors then 1 else 0)%Z
  | n :: names =>
    let '(x, r) := hash_file x (w k n) in
    match r with
    | None => gen_loop w (S k) x names true
    | Some sum => let '(out, code) := gen_loop w (S k) x names errors in (sum ++ [SP] ++ n ++ [NL] ++ out, code)
    end
  end.
Definition gostsum_generate (c0 : gost_ctx) (test : bool) (w : world) (names : list (list N)) : list N * Z :=
  gen_loop w 0 (init_gost_hash_ctx c0 (sum_sbox test)) names false.

(** * gost12sum *)
(** gost12sum.c:231-248 [hash_stream] and 214-229 [hash_file]; [size] is 32 or 64 bytes.  The context is initialised for
    every file, so it is not passed along. *)
Definition hash_stream12 (bd : build) (ac : bool) (size : N) (o : opened) : option (list N) :=
  let x := fold_left (gost2012_hash_block bd ac) (o_chunks o) (init_gost2012_hash_ctx (size * 8)) in
  if o_error o then None else Some (hexstr (firstn (N.to_nat size) (snd (gost2012_finish_hash bd ac x)))).
Definition hash_file12 (bd : build) (ac : bool) (size : N) (o : option opened) : option (list N) :=
  match o with None => None | Some o => hash_stream12 bd ac size o end.

(** The first space (strchr): what is before and what is after it. *)
Fixpoint split_space (s : list N) : option (list N * list N) :=
  match s with
  | nil => None
  | c :: s' => if c =? SP then Some (nil, s')
               else match split_space s' with Some (a, b) => Some (c :: a, b) | None => None end
  end.
Fixpoint skip_spaces (s : list N) : list N :=
  match s with nil => nil | c :: s' => if c =? SP then skip_spaces s' else s end.
(** gost12sum.c:259-292, one line of [get_line]: [s] is the C string in the buffer.  The read at ptr[-1] (264) is in front
    of the buffer only if no space was skipped. *)
Inductive parsed12 := P_line (hash name : list N) (size : N) | P_skip | P_bad.
Definition parse_line12 (s : list N) : parsed12 :=
  let p := skip_spaces s in
  match strip p with
  | nil => if (length p =? length s)%nat then P_bad else P_skip
  | [_] => P_skip
  | p =>
    match split_space p with
    | None => P_skip
    | Some (_, nil) => P_skip
    | Some (h, name) =>
      if negb (forallb is_hex_char h) then P_skip
      else if (length h =? 64)%nat || (length h =? 128)%nat then P_line h name (N.of_nat (length h) / 2)
      else P_line (zeros 129) name 0
    end
  end.
(** gost12sum.c:250-299 [get_line]: the loop over the lines.  [feof] needs no state: after the last character a further
    fgets fails as well. *)
Inductive line12 := Line12 (hash name : list N) (size : N) (rest : list N) | No_line12 | Bad12 | Fuel12.
Fixpoint get_line12 (fuel : nat) (f : list N) : line12 :=
  match fuel with
  | O => Fuel12
  | S fuel' =>
    match fgets f with
    | None => No_line12
    | Some (buf, rest) =>
      match parse_line12 (cstr buf) with
      | P_bad => Bad12
      | P_skip => get_line12 fuel' rest
      | P_line h name size => Line12 h name size rest
      end
    end
  end.
(** gost12sum.c:131-175, the check loop. *)
Fixpoint check_loop12 (fuel : nat) (bd : build) (ac : bool) (w : world) (k : nat) (f : list N) (failed : bool) : sum_result :=
  match fuel with
  | O => Out_of_fuel
  | S fuel' =>
    match get_line12 (S (length f)) f with
    | No_line12 => Exited (if failed then 1 else 0) nil
    | Bad12 => Undefined
    | Fuel12 => Out_of_fuel
    | Line12 inhash name size rest =>
      if size =? 0 then add_verdict (name, V_cannot_process) (check_loop12 fuel' bd ac w k rest true)
      else
        match hash_file12 bd ac size (w k name) with
        | None => add_verdict (name, V_cannot_process) (check_loop12 fuel' bd ac w (S k) rest true)
        | Some calcsum =>
          if eqbl calcsum inhash
          then add_verdict (name, V_ok) (check_loop12 fuel' bd ac w (S k) rest failed)
          else add_verdict (name, V_failed) (check_loop12 fuel' bd ac w (S k) rest true)
        end
    end
  end.
Definition gost12sum_check (bd : build) (ac : bool) (w : world) (f : list N) : sum_result :=
  check_loop12 (S (length f)) bd ac w 0 f false.
(** gost12sum.c:201-211: the generating mode, [size] is 32 or (option -l) 64. *)
Fixpoint gen_loop12 (bd : build) (ac : bool) (size : N) (w : world) (k : nat) (names : list (list N)) (errors : bool) : list N * Z :=
  match names with
  | nil => (nil, if errors then 1 else 0)%Z
  | n :: names =>
    match hash_file12 bd ac size (w k n) with
    | None => gen_loop12 bd ac size w (S k) names true
    | Some sum => let '(out, code) := gen_loop12 bd ac size w (S k) names errors in (sum ++ [SP] ++ n ++ [NL] ++ out, code)
    end
  end.
Definition gost12sum_generate (bd : build) (ac : bool) (size : N) (w : world) (names : list (list N)) : list N * Z :=
  gen_loop12 bd ac size w 0 names false.
(** gost12sum.c:176-191 (option -x): the names come from standard input, one per line; [None]: a read in front of the
    buffer.  (The digest size is that of -l here as well, although the help text says 256 bit only.) *)
Fixpoint read_names (fuel : nat) (f : list N) : option (list (list N)) :=
  match fuel with
  | O => None
  | S fuel' =>
    match fgets f with
    | None => Some nil
    | Some (buf, rest) =>
      match strip (cstr buf) with
      | nil => None
      | n => match read_names fuel' rest with Some l => Some (n :: l) | None => None end
      end
    end
  end.
Definition gost12sum_x (bd : build) (ac : bool) (size : N) (w : world) (f : list N) : option (list N * Z) :=
  match read_names (S (length f)) f with
  | Some names => Some (gen_loop12 bd ac size w 0 names false)
  | None => None
  end.
