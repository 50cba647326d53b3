(** src/write.rs again, over any kind of output: the writer as a program of output calls, run on a file or through a buffer.
    (src/write.rs:449-473 and 701-713 write to a [BufWriter<File>].) *)
From Verif Require Import M_Base M_Text M_TypeStr M_PyLit M_IO M_Header M_Read M_Serialize M_DTypeErr M_Write S_Write.
Open Scope N_scope.

(** The calls made on [fw: MaybeSeek<W>] (src/write.rs:396-403, 740-768): [write_all], [seek(SeekFrom::Current(0))],
    [seek(SeekFrom::Start(p))], [flush], each followed by [?]. *)
Inductive wprog (A : Type) :=
| WRet (r : res A)
| WWrite (bs : bytes) (k : wprog A)
| WTell (k : N -> wprog A)
| WSeek (p : N) (k : wprog A)
| WFlush (k : wprog A).
Arguments WRet {A}. Arguments WWrite {A}. Arguments WTell {A}. Arguments WSeek {A}. Arguments WFlush {A}.
Fixpoint wbind {A B} (p : wprog A) (f : A -> wprog B) : wprog B :=
  match p with
  | WRet (Ok a) => f a
  | WRet (Err e) => WRet (Err e)
  | WRet Panic => WRet Panic
  | WWrite bs k => WWrite bs (wbind k f)
  | WTell k => WTell (fun n => wbind (k n) f)
  | WSeek p k => WSeek p (wbind k f)
  | WFlush k => WFlush (wbind k f)
  end.

(** * The writer's functions as programs *)
(** src/write.rs:564-595 *)
Definition write_header_p (c : cfg) (d : dtype) (o : order) (h : shape_hint) : wprog (shape_info * version_props) :=
  match d with
  | DArray _ _ => WRet Panic
  | _ =>
    wbind (WRet (create_dict c d o h)) (fun di =>
    wbind (WRet (determine_required_version_and_pad_header (fst di))) (fun hvp =>
    let '(txt, version, props) := hvp in
    WWrite [0x93] (WWrite (lit "NUMPY") (WWrite [fst version; snd version] (
    if negb ((lenN txt + bytes_before_text props) mod 16 =? 0) then WRet Panic
    else
      let rest := WWrite txt (WRet (Ok (snd di, props))) in
      if vp_u32 props then (if lenN txt <=? 2 ^ 32 - 1 then WWrite (le_bytes 4 (lenN txt)) rest else WRet Panic)
      else (if lenN txt <=? 2 ^ 16 - 1 then WWrite (le_bytes 2 (lenN txt)) rest else WRet Panic))))))
  end.
(** src/write.rs:476-499 *)
Definition begin_p (c : cfg) (t : rty) (d : dtype) (o : order) (h : shape_hint) (seekable : bool) : wprog npy_writer :=
  let rest start_pos :=
    wbind (write_header_p c d o h) (fun ip =>
    match writer c t d with
    | DErr e => WRet (Err (EData (dterr_display e)))
    | DOk tw => WRet (Ok {| w_start_pos := start_pos; w_shape_info := fst ip; w_num_items := 0; w_seekable := seekable;
                            w_writer := tw; w_version_props := snd ip |})
    end) in
  if seekable then WTell (fun p => rest (Some p)) else rest None.
(** src/write.rs:523-529 and 539-545, 717-788 *)
Definition patch_p (w : npy_writer) (offset : N) (txt : res bytes) (k : wprog unit) : wprog unit :=
  match w_start_pos w with
  | None => WRet Panic
  | Some start =>
    let shape_pos := start + bytes_before_text (w_version_props w) + offset in
    if w_seekable w then
      WTell (fun end_pos => WSeek shape_pos (wbind (WRet txt) (fun bs => WWrite bs (WSeek end_pos k))))
    else WRet Panic
  end.
(** src/write.rs:512-550 *)
Definition finish_p (w : npy_writer) : wprog unit :=
  let done := WFlush (WRet (Ok tt)) in
  match w_shape_info w with
  | Known expected =>
    if negb (expected =? w_num_items w) then WRet (Err (EData (lit "shape has " ++ dec expected ++ lit " item(s), but " ++ dec (w_num_items w) ++ lit " item(s) were written!")))
    else done
  | Automatic1D offset => patch_p w offset (shape_suffix_1d (dec (w_num_items w))) done
  | Automatic2D offset record_len o =>
    if record_len =? 0 then WRet Panic
    else if negb (w_num_items w mod record_len =? 0) then WRet (Err (EData (dec (w_num_items w) ++ lit " item(s) is not divisible by " ++ dec record_len ++ lit "!")))
    else patch_p w offset (shape_suffix_2d o record_len (dec (w_num_items w / record_len))) done
  end.

(** * Running it *)
(** On a file. *)
Fixpoint run_sink {A} (p : wprog A) (s : sink) : res A * sink :=
  match p with
  | WRet r => (r, s)
  | WWrite bs k => match sink_write bs s with (Ok _, s') => run_sink k s' | (Err e, s') => (Err e, s') | (Panic, s') => (Panic, s') end
  | WTell k => match sink_tell s with (Ok n, s') => run_sink (k n) s' | (Err e, s') => (Err e, s') | (Panic, s') => (Panic, s') end
  | WSeek p k => match sink_seek p s with (Ok _, s') => run_sink k s' | (Err e, s') => (Err e, s') | (Panic, s') => (Panic, s') end
  | WFlush k => match sink_flush s with (Ok _, s') => run_sink k s' | (Err e, s') => (Err e, s') | (Panic, s') => (Panic, s') end
  end.

(** Through a buffer.  [b_policy i have new]: how many of its bytes the buffer passes on to the file during the [i]th write, of [new]
    bytes when it has [have].  (One write of the model may be several of the code, during each of which some are passed on.) *)
Record buffered := { b_file : sink; b_bytes : bytes; b_calls : N; b_policy : N -> N -> N -> N }.
(** BufWriter::new, or any other way of buffering. *)
Definition fresh (policy : N -> N -> N -> N) (s : sink) : buffered := {| b_file := s; b_bytes := []; b_calls := 0; b_policy := policy |}.
(** std::io::BufWriter with room for [cap] bytes: nothing while there is room; otherwise what it had, and also the new bytes if there
    are as many as it has room for (BufWriter::write_all and write_all_cold). *)
Definition std_policy (cap : N) (_ have new : N) : N :=
  if new <? cap - have then 0
  else if cap <=? new then have + new
  else if cap - have <? new then have else 0.
(** Pass on the first [k] bytes.  After an error the bytes not written stay (for a BufWriter, those among them that it had already
    accepted; this makes no difference here, as the file accepts no more bytes). *)
Definition pass_on (k : N) (b : buffered) : res unit * buffered :=
  let '(r, f) := sink_write (takeN k (b_bytes b)) (b_file b) in
  (r, {| b_file := f; b_bytes := dropN (sk_pos f - sk_pos (b_file b)) (b_bytes b); b_calls := b_calls b; b_policy := b_policy b |}).
Definition buffered_write (bs : bytes) (b : buffered) : res unit * buffered :=
  pass_on (b_policy b (b_calls b) (lenN (b_bytes b)) (lenN bs)) {| b_file := b_file b; b_bytes := b_bytes b ++ bs; b_calls := b_calls b + 1; b_policy := b_policy b |}.
(** BufWriter::flush_buf *)
Definition flush_buffer (b : buffered) : res unit * buffered := pass_on (lenN (b_bytes b)) b.
(** BufWriter::flush and BufWriter::seek: empty the buffer, then do the same to the file. *)
Definition buffered_then {A} (f : sink -> res A * sink) (b : buffered) : res A * buffered :=
  match flush_buffer b with
  | (Ok _, b') => let '(r, s) := f (b_file b') in (r, {| b_file := s; b_bytes := b_bytes b'; b_calls := b_calls b'; b_policy := b_policy b' |})
  | (Err e, b') => (Err e, b')
  | (Panic, b') => (Panic, b')
  end.
(** BufWriter::drop: errors are ignored. *)
Definition drop_buffer (b : buffered) : sink := b_file (snd (flush_buffer b)).
Fixpoint run_buffered {A} (p : wprog A) (b : buffered) : res A * buffered :=
  match p with
  | WRet r => (r, b)
  | WWrite bs k => match buffered_write bs b with (Ok _, b') => run_buffered k b' | (Err e, b') => (Err e, b') | (Panic, b') => (Panic, b') end
  | WTell k => match buffered_then sink_tell b with (Ok n, b') => run_buffered (k n) b' | (Err e, b') => (Err e, b') | (Panic, b') => (Panic, b') end
  | WSeek p k => match buffered_then (sink_seek p) b with (Ok _, b') => run_buffered k b' | (Err e, b') => (Err e, b') | (Panic, b') => (Panic, b') end
  | WFlush k => match buffered_then sink_flush b with (Ok _, b') => run_buffered k b' | (Err e, b') => (Err e, b') | (Panic, b') => (Panic, b') end
  end.

(** * Sessions over either *)
Section Output.
Context {S : Type} (exec : forall A, wprog A -> S -> res A * S).
(** src/write.rs:502-505 *)
Definition push_on (c : cfg) (v : val) (w : npy_writer) (s : S) : res unit * npy_writer * S :=
  match u64_add c (w_num_items w) 1 with
  | Ok n =>
    let w' := {| w_start_pos := w_start_pos w; w_shape_info := w_shape_info w; w_num_items := n;
                 w_seekable := w_seekable w; w_writer := w_writer w; w_version_props := w_version_props w |} in
    let '(bs, r) := write_one c (w_writer w) v in
    let '(r', s') := exec unit (WWrite bs (WRet r)) s in
    (r', w', s')
  | Err e => (Err e, w, s)
  | Panic => (Panic, w, s)
  end.
Fixpoint push_each_on (c : cfg) (vs : list val) (w : npy_writer) (s : S) : list (res unit) * npy_writer * S :=
  match vs with
  | [] => ([], w, s)
  | v :: vs' =>
    let '(r, w', s') := push_on c v w s in
    let '(rs, w'', s'') := push_each_on c vs' w' s' in (r :: rs, w'', s'')
  end.
(** src/write.rs:508-510 *)
Fixpoint extend_on (c : cfg) (vs : list val) (w : npy_writer) (s : S) : res unit * npy_writer * S :=
  match vs with
  | [] => (Ok tt, w, s)
  | v :: vs' =>
    match push_on c v w s with
    | (Ok _, w', s') => extend_on c vs' w' s'
    | (Err e, w', s') => (Err e, w', s')
    | (Panic, w', s') => (Panic, w', s')
    end
  end.
(** src/write.rs:631-635 *)
Definition drop_on (w : npy_writer) (s : S) : res unit * S :=
  match exec unit (finish_p w) s with
  | (Panic, s') => (Panic, s')
  | (_, s') => (Ok tt, s')
  end.
(** src/write.rs:559-561 *)
Definition finish_on (w : npy_writer) (s : S) : res unit * S :=
  match exec unit (finish_p w) s with
  | (Panic, s') => (Panic, snd (drop_on w s'))
  | (r, s') =>
    match drop_on w s' with
    | (Panic, s'') => (Panic, s'')
    | (_, s'') => (r, s'')
    end
  end.
Definition ended_on (e : ending) (w : npy_writer) (s : S) : res unit * S :=
  match e with Finished => finish_on w s | Dropped => drop_on w s end.
Definition session_on (c : cfg) (t : rty) (d : dtype) (o : order) (h : shape_hint) (seekable : bool) (vs : list val) (e : ending)
  (s : S) : res (list (res unit) * res unit) * S :=
  match exec npy_writer (begin_p c t d o h seekable) s with
  | (Ok w, s1) =>
    let '(rs, w', s2) := push_each_on c vs w s1 in
    let '(r, s3) := ended_on e w' s2 in (Ok (rs, r), s3)
  | (Err e, s1) => (Err e, s1)
  | (Panic, s1) => (Panic, s1)
  end.
(** The same, stopped before the end: the process is killed between two pushes. *)
Definition started_on (c : cfg) (t : rty) (d : dtype) (o : order) (h : shape_hint) (seekable : bool) (vs : list val) (s : S) : res (list (res unit)) * S :=
  match exec npy_writer (begin_p c t d o h seekable) s with
  | (Ok w, s1) => let '(rs, _, s2) := push_each_on c vs w s1 in (Ok rs, s2)
  | (Err e, s1) => (Err e, s1)
  | (Panic, s1) => (Panic, s1)
  end.
(** src/write.rs:701-713 *)
Definition write_file_on (c : cfg) (t : rty) (d : dtype) (o : order) (h : shape_hint) (seekable : bool) (vs : list val) (s : S) : res unit * S :=
  match exec npy_writer (begin_p c t d o h seekable) s with
  | (Ok w, s1) =>
    match extend_on c vs w s1 with
    | (Ok _, w', s') => finish_on w' s'
    | (r, w', s') =>
      match drop_on w' s' with
      | (Panic, s'') => (Panic, s'')
      | (_, s'') => (r, s'')
      end
    end
  | (Err e, s1) => (Err e, s1)
  | (Panic, s1) => (Panic, s1)
  end.
End Output.
