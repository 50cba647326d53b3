(** A file that can be read and sought in, both of which may fail: NpyReader over any [io::Read + io::Seek] (src/read.rs:401-454, 555-575). *)
From Verif Require Import M_Base M_Text M_TypeStr M_PyLit M_IO M_Header M_Read M_Serialize M_DTypeErr M_NpyReader M_Source.
Open Scope N_scope.

(** What the next [read] calls do: give bytes, at most [n + 1]; return [ErrorKind::Interrupted]; return another error.
    What the next [seek] calls do: [Some e] fails and moves nothing.  Calls without a plan work. *)
Inductive hiccup := Upto (n : N) | Retry | Fail (e : N).
Definition advance (k : N) (s : cursor) : cursor := {| cur_data := cur_data s; cur_pos := cur_pos s + k |}.
(** std::io::default_read_exact *)
Fixpoint fill_flaky (want : N) (s : cursor) (plan : list hiccup) (acc : bytes) {struct plan} : got * cursor * list hiccup :=
  if want =? 0 then (Got acc, s, plan)
  else match plan with
  | [] => if want <=? lenN (cur_rest s) then (Got (acc ++ takeN want (cur_rest s)), advance want s, []) else (Ended, advance (lenN (cur_rest s)) s, [])
  | Retry :: plan' => fill_flaky want s plan' acc
  | Fail e :: plan' => (Broken e, s, plan')
  | Upto n :: plan' =>
    let bs := takeN (N.min (n + 1) want) (cur_rest s) in
    if lenN bs =? 0 then (Ended, s, plan')
    else fill_flaky (want - lenN bs) (advance (lenN bs) s) plan' (acc ++ bs)
  end.
Fixpoint run_flaky {A} (p : rprog A) (s : cursor) (plan : list hiccup) : outcome A * cursor * list hiccup :=
  match p with
  | RRet a => (Done (Ok a), s, plan)
  | RErr e => (Done (Err e), s, plan)
  | RPanic => (Done Panic, s, plan)
  | RRead n eof k =>
    match fill_flaky n s plan [] with
    | (Got bs, s', plan') => run_flaky (k bs) s' plan'
    | (Ended, s', plan') => (Done (Err eof), s', plan')
    | (Broken e, s', plan') => (Failed e, s', plan')
    end
  end.

(** src/read.rs:182-187 *)
Record flaky_reader := { fr_header : nheader; fr_type : treader; fr_src : cursor; fr_reads : list hiccup; fr_seeks : list (option N); fr_index : N }.
(** src/read.rs:559-566 *)
Definition fr_next (c : cfg) (r : flaky_reader) : option (outcome val) * flaky_reader :=
  if fr_index r <? h_n_records (fr_header r) then
    let '(v, s', plan') := run_flaky (read_one c (fr_type r)) (fr_src r) (fr_reads r) in
    (Some v, {| fr_header := fr_header r; fr_type := fr_type r; fr_src := s'; fr_reads := plan'; fr_seeks := fr_seeks r; fr_index := fr_index r + 1 |})
  else (None, r).
(** [reader.seek(SeekFrom::Current(d))] *)
Definition seek_flaky (d : Z) (s : cursor) (plan : list (option N)) : outcome unit * cursor * list (option N) :=
  match plan with
  | Some e :: plan' => (Failed e, s, plan')
  | None :: plan' => let '(x, s') := cur_seek d s in (Done x, s', plan')
  | [] => let '(x, s') := cur_seek d s in (Done x, s', [])
  end.
(** src/read.rs:422-440 *)
Definition fr_seek_to (c : cfg) (index : N) (r : flaky_reader) : outcome unit * flaky_reader :=
  if h_n_records (fr_header r) <? index then (Done Panic, r)
  else match i64_op c (as_i64 index - as_i64 (fr_index r)) with
  | Panic => (Done Panic, r)
  | Err e => (Done (Err e), r)
  | Ok delta =>
    if (delta =? 0)%Z then (Done (Ok tt), r)
    else match h_item_size (fr_header r) with
    | None => (Done (Err EUnsupported), r)
    | Some size =>
      match i64_op c (delta * as_i64 size) with
      | Panic => (Done Panic, r)
      | Err e => (Done (Err e), r)
      | Ok d =>
        let '(x, s', plan') := seek_flaky d (fr_src r) (fr_seeks r) in
        let stay := {| fr_header := fr_header r; fr_type := fr_type r; fr_src := s'; fr_reads := fr_reads r; fr_seeks := plan'; fr_index := fr_index r |} in
        match x with
        | Done (Ok _) => (x, {| fr_header := fr_header r; fr_type := fr_type r; fr_src := s'; fr_reads := fr_reads r; fr_seeks := plan'; fr_index := index |})
        | _ => (x, stay)
        end
      end
    end
  end.
(** src/read.rs:447-453 *)
Definition fr_read_at (c : cfg) (index : N) (r : flaky_reader) : outcome val * flaky_reader :=
  if h_n_records (fr_header r) <=? index then (Done Panic, r)
  else match fr_seek_to c index r with
  | (Done (Ok _), r') =>
    match fr_next c r' with
    | (Some v, r'') => (v, r'')
    | (None, r'') => (Done Panic, r'')
    end
  | (Done (Err e), r') => (Done (Err e), r')
  | (Done Panic, r') => (Done Panic, r')
  | (Failed e, r') => (Failed e, r')
  end.
