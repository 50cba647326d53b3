(** Reading from a source that can fail: src/read.rs and src/header.rs over an [io::Read] whose calls may return errors. *)
From Verif Require Import M_Base M_Text M_TypeStr M_PyLit M_IO M_Header M_Read M_Serialize M_DTypeErr M_NpyReader.
Open Scope N_scope.

(** The outcomes of successive [read] calls: bytes (as in M_IO.v), [ErrorKind::Interrupted], or another error, of which [e] is the number.
    (Simplified: a source that itself reports [ErrorKind::UnexpectedEof] is one that ends.) *)
Inductive event := Chunk (bs : bytes) | Interrupted | Fault (e : N).
Definition source := list event.
Inductive got := Got (bs : bytes) | Ended | Broken (e : N).
(** std::io::default_read_exact: [want] bytes still to read, [acc] read so far; what was read before an error is lost. *)
Fixpoint fill (want : N) (s : source) (acc : bytes) {struct s} : got * source :=
  if want =? 0 then (Got acc, s)
  else match s with
  | [] => (Ended, [])
  | Interrupted :: s' => fill want s' acc
  | Fault e :: s' => (Broken e, s')
  | Chunk [] :: s' => (Ended, s')
  | Chunk c :: s' =>
    if want <? lenN c then (Got (acc ++ takeN want c), Chunk (dropN want c) :: s')
    else fill (want - lenN c) s' (acc ++ c)
  end.
(** What the caller gets: what the code makes of the bytes, or the error of the source (src/header.rs:265-268 and every [?] on a read). *)
Inductive outcome (A : Type) := Done (r : res A) | Failed (e : N).
Arguments Done {A}. Arguments Failed {A}.
Fixpoint run_source {A} (p : rprog A) (s : source) : outcome A * source :=
  match p with
  | RRet a => (Done (Ok a), s)
  | RErr e => (Done (Err e), s)
  | RPanic => (Done Panic, s)
  | RRead n eof k =>
    match fill n s [] with
    | (Got bs, s') => run_source (k bs) s'
    | (Ended, s') => (Done (Err eof), s')
    | (Broken e, s') => (Failed e, s')
    end
  end.
(** src/read.rs:219-222 *)
Definition open_source (c : cfg) (s : source) : outcome nheader * source := run_source (read_and_interpret c) s.
(** src/read.rs:303-308 with 219-222 *)
Definition into_vec_source (c : cfg) (t : rty) (s : source) : outcome (nheader * list val) * source := run_source (into_vec_prog c t) s.
(** src/read.rs:182-187, 559-566 *)
Record src_reader := { sr_header : nheader; sr_type : treader; sr_src : source; sr_index : N }.
Definition sr_next (c : cfg) (r : src_reader) : option (outcome val) * src_reader :=
  if sr_index r <? h_n_records (sr_header r) then
    let '(v, s') := run_source (read_one c (sr_type r)) (sr_src r) in
    (Some v, {| sr_header := sr_header r; sr_type := sr_type r; sr_src := s'; sr_index := sr_index r + 1 |})
  else (None, r).
(** [n] calls of [next]. *)
Fixpoint sr_nexts (c : cfg) (n : nat) (r : src_reader) : list (option (outcome val)) * src_reader :=
  match n with
  | O => ([], r)
  | S m => let '(x, r') := sr_next c r in let '(xs, r'') := sr_nexts c m r' in (x :: xs, r'')
  end.
(** src/read.rs:316-323 *)
Definition data_source (c : cfg) (t : rty) (h : nheader) (s : source) : dres src_reader :=
  if h_pickled h then DErr RequiresPickle
  else let? r := reader c t (h_dtype h) in DOk {| sr_header := h; sr_type := r; sr_src := s; sr_index := 0 |}.
