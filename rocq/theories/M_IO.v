(** Input and output.

    Reading code is a tree of [Read::read_exact] calls ([rprog]); it is run over a byte list, a seekable
    cursor, or an arbitrary reader that splits its data into chunks.  Writing goes to a [sink]. *)
From Verif Require Import M_Base.
Open Scope N_scope.

(** A program that only touches its input through [read_exact]. *)
Inductive rprog (A : Type) :=
| RRet (a : A)
| RErr (e : err)
| RPanic
| RRead (n : N) (eof : err) (k : bytes -> rprog A).   (* [eof]: error if fewer than [n] bytes remain *)
Arguments RRet {A}. Arguments RErr {A}. Arguments RPanic {A}. Arguments RRead {A}.

Fixpoint rbind {A B} (p : rprog A) (f : A -> rprog B) : rprog B :=
  match p with
  | RRet a => f a
  | RErr e => RErr e
  | RPanic => RPanic
  | RRead n eof k => RRead n eof (fun bs => rbind (k bs) f)
  end.
Notation "'let!' x ':=' e 'in' k" := (rbind e (fun x => k))
  (at level 200, x name, e at level 100, k at level 200, right associativity).

(** [reader.read_exact(&mut [0; n])?] *)
Definition read_exact (n : N) : rprog bytes := RRead n EUnexpectedEof (fun bs => RRet bs).
(** [reader.read_exact(&mut vec![0; n])?]: the buffer is allocated first *)
Definition read_vec (c : cfg) (n : N) : rprog bytes := if isize_max c <? n then RPanic else read_exact n.
(** A pure fallible step. *)
Definition rlift {A} (r : res A) : rprog A :=
  match r with Ok a => RRet a | Err e => RErr e | Panic => RPanic end.

(** Run [f] the given number of times, collecting results, stopping at the first error. *)
Fixpoint rreplicate {A} (n : nat) (p : rprog A) : rprog (list A) :=
  match n with
  | O => RRet []
  | S m => let! x := p in let! xs := rreplicate m p in RRet (x :: xs)
  end.

(** Running over a byte list: result and remaining input.  At end of input [read_exact] consumes what is left. *)
Fixpoint run {A} (p : rprog A) (input : bytes) : res A * bytes :=
  match p with
  | RRet a => (Ok a, input)
  | RErr e => (Err e, input)
  | RPanic => (Panic, input)
  | RRead n eof k =>
    if n <=? lenN input then run (k (takeN n input)) (dropN n input)
    else (Err eof, [])
  end.

(** Running over an [io::Read] that delivers its bytes in pieces.  Each element of the schedule is the outcome of
    one [read] call offered more room than it uses: [Some chunk] a short read (a longer request is filled by further calls,
    a shorter one leaves the rest of the chunk for the next call), [None] is [ErrorKind::Interrupted].  [read_exact]
    retries interrupted calls and keeps reading until full (std's default [read_exact]).  An exhausted schedule is
    end of file. *)
Definition schedule := list (option bytes).
Fixpoint sched_bytes (s : schedule) : bytes :=
  match s with
  | [] => []
  | Some c :: s' => c ++ sched_bytes s'
  | None :: s' => sched_bytes s'
  end.
(** std::io::default_read_exact: [want] bytes still to read, [acc] read so far. *)
Fixpoint read_exact_loop (want : N) (s : schedule) (acc : bytes) {struct s} : option bytes * schedule :=
  if want =? 0 then (Some acc, s)
  else match s with
  | [] => (None, [])
  | None :: s' => read_exact_loop want s' acc
  | Some [] :: s' => (None, s')                                (* Ok(0): end of file *)
  | Some c :: s' =>
    if want <? lenN c then (Some (acc ++ takeN want c), Some (dropN want c) :: s')
    else read_exact_loop (want - lenN c) s' (acc ++ c)
  end.
Fixpoint run_sched {A} (p : rprog A) (s : schedule) : res A * schedule :=
  match p with
  | RRet a => (Ok a, s)
  | RErr e => (Err e, s)
  | RPanic => (Panic, s)
  | RRead n eof k =>
    match read_exact_loop n s [] with
    | (Some bs, s') => run_sched (k bs) s'
    | (None, s') => (Err eof, s')
    end
  end.

(** [io::Cursor<&[u8]>] (or a file): contents and position.  Reading past the end leaves the position where the data ended. *)
Record cursor := { cur_data : bytes; cur_pos : N }.
Definition cur_rest (c : cursor) : bytes := dropN (cur_pos c) (cur_data c).
Definition run_cursor {A} (p : rprog A) (c : cursor) : res A * cursor :=
  let '(r, rest) := run p (cur_rest c) in
  (r, {| cur_data := cur_data c; cur_pos := cur_pos c + (lenN (cur_rest c) - lenN rest) |}).
(** [seek(SeekFrom::Current(delta))]: negative target is [InvalidInput]; targets past the end are allowed. *)
Definition cur_seek (delta : Z) (c : cursor) : res unit * cursor :=
  let target := (Z.of_N (cur_pos c) + delta)%Z in
  if ((target <? 0) || (2 ^ 64 <=? target))%Z then (Err EInvalidInput, c)
  else (Ok tt, {| cur_data := cur_data c; cur_pos := Z.to_N target |}).

(** Output.  [sk_fuel = Some n]: the output stops working after [n] more elementary effects, where one byte written, one seek and
    one flush are one effect each; [None]: it never fails. *)
Record sink := { sk_data : bytes; sk_pos : N; sk_fuel : option N }.

(** Overwrite from a position, extending (zero-filling a gap) as needed, like [Cursor<Vec<u8>>] and files do. *)
Definition overwrite (data : bytes) (pos : N) (bs : bytes) : bytes :=
  takeN pos data ++ repeatN 0 (pos - lenN data) ++ bs ++ dropN (pos + lenN bs) data.

(** [write_all]: on failure a prefix has been written. *)
Definition sink_write (bs : bytes) (s : sink) : res unit * sink :=
  let put bs' fuel := {| sk_data := match bs' with [] => sk_data s | _ => overwrite (sk_data s) (sk_pos s) bs' end;
                         sk_pos := sk_pos s + lenN bs'; sk_fuel := fuel |} in
  match sk_fuel s with
  | None => (Ok tt, put bs None)
  | Some n =>
    if lenN bs <=? n then (Ok tt, put bs (Some (n - lenN bs)))
    else (Err ESink, put (takeN n bs) (Some 0))
  end.

(** One effect without data. *)
Definition sink_tick (s : sink) : res unit * sink :=
  match sk_fuel s with
  | None => (Ok tt, s)
  | Some n =>
    if n =? 0 then (Err ESink, s)
    else (Ok tt, {| sk_data := sk_data s; sk_pos := sk_pos s; sk_fuel := Some (n - 1) |})
  end.

(** [seek(SeekFrom::Start(p))]. *)
Definition sink_seek (p : N) (s : sink) : res unit * sink :=
  match sink_tick s with
  | (Ok _, s') => (Ok tt, {| sk_data := sk_data s'; sk_pos := p; sk_fuel := sk_fuel s' |})
  | (Err e, s') => (Err e, s')
  | (Panic, s') => (Panic, s')
  end.

(** [seek(SeekFrom::Current(0))]: report the position. *)
Definition sink_tell (s : sink) : res N * sink :=
  match sink_tick s with
  | (Ok _, s') => (Ok (sk_pos s'), s')
  | (Err e, s') => (Err e, s')
  | (Panic, s') => (Panic, s')
  end.

(** [flush]. *)
Definition sink_flush (s : sink) : res unit * sink := sink_tick s.

(** Sequencing of output actions. *)
Definition sbind {A B} (m : sink -> res A * sink) (k : A -> sink -> res B * sink) (s : sink) : res B * sink :=
  match m s with
  | (Ok a, s') => k a s'
  | (Err e, s') => (Err e, s')
  | (Panic, s') => (Panic, s')
  end.
Notation "'let@' x ':=' e 'in' k" := (sbind e (fun x => k))
  (at level 200, x name, e at level 100, k at level 200, right associativity).
Definition sret {A} (r : res A) (s : sink) : res A * sink := (r, s).
