(** src/write.rs over a std::io::BufWriter whose output may fail now and work again later (src/write.rs:449-473 and 701-713 write to a BufWriter<File>).
    The BufWriter is that of the standard library, call by call; unlike in M_Buffered.v it matters what it keeps after an error, because the output may work again. *)
From Verif Require Import M_Base M_IO M_Header M_Read M_Serialize M_Write M_Buffered M_Shaky S_Write.
Open Scope N_scope.

(** [q_cuts i]: how the bytes of the [i]th write of the model are divided into calls of [write_all] (an item is written in pieces: a record field by field, a
    string and then its padding; see M_Serialize.v).  Simplified: any division, instead of the one for the type at hand. *)
Record spilling := { q_out : shaky; q_buf : bytes; q_cap : N; q_cuts : N -> list N; q_calls : N }.
(** BufWriter::with_capacity(cap, output) *)
Definition buf_new (cap : N) (cuts : N -> list N) (y : shaky) : spilling := {| q_out := y; q_buf := []; q_cap := cap; q_cuts := cuts; q_calls := 0 |}.
Definition with_state (q : spilling) (y : shaky) (buf : bytes) : spilling := {| q_out := y; q_buf := buf; q_cap := q_cap q; q_cuts := q_cuts q; q_calls := q_calls q |}.

(** BufWriter::flush_buf: after an error the bytes not written stay in the buffer. *)
Definition flush_buf (q : spilling) : res unit * spilling :=
  let '(r, y) := shaky_write (q_buf q) (q_out q) in
  (r, with_state q y (dropN (sk_pos (y_out y) - sk_pos (y_out (q_out q))) (q_buf q))).
(** BufWriter::write_all and write_all_cold: if there is room the bytes go to the buffer; if not the buffer is emptied first, and if that fails none of them are taken;
    as many bytes as the buffer can hold, or more, are written directly. *)
Definition buf_write_all (bs : bytes) (q : spilling) : res unit * spilling :=
  if lenN bs <? q_cap q - lenN (q_buf q) then (Ok tt, with_state q (q_out q) (q_buf q ++ bs))
  else match (if q_cap q - lenN (q_buf q) <? lenN bs then flush_buf q else (Ok tt, q)) with
  | (Ok _, q1) =>
    if q_cap q <=? lenN bs then let '(r, y) := shaky_write bs (q_out q1) in (r, with_state q1 y (q_buf q1))
    else (Ok tt, with_state q1 (q_out q1) (q_buf q1 ++ bs))
  | (Err e, q1) => (Err e, q1)
  | (Panic, q1) => (Panic, q1)
  end.
(** One write of the model: one call of [write_all] after the other, up to the first error. *)
Fixpoint buf_pieces (lens : list N) (bs : bytes) (q : spilling) : res unit * spilling :=
  match lens with
  | [] => buf_write_all bs q
  | n :: lens' =>
    match buf_write_all (takeN n bs) q with
    | (Ok _, q') => buf_pieces lens' (dropN n bs) q'
    | (Err e, q') => (Err e, q')
    | (Panic, q') => (Panic, q')
    end
  end.
Definition buf_write (bs : bytes) (q : spilling) : res unit * spilling :=
  buf_pieces (q_cuts q (q_calls q)) bs {| q_out := q_out q; q_buf := q_buf q; q_cap := q_cap q; q_cuts := q_cuts q; q_calls := q_calls q + 1 |}.
(** BufWriter::seek and BufWriter::flush: [self.flush_buf()?], then the same of the output. *)
Definition buf_then {A} (f : sink -> res A * sink) (q : spilling) : res A * spilling :=
  match flush_buf q with
  | (Ok _, q1) => let '(r, y) := shaky_call f (q_out q1) in (r, with_state q1 y (q_buf q1))
  | (Err e, q1) => (Err e, q1)
  | (Panic, q1) => (Panic, q1)
  end.
(** BufWriter::drop: [let _r = self.flush_buf();].  What is left is the output. *)
Definition buf_drop (q : spilling) : sink := y_out (q_out (snd (flush_buf q))).
(** The writer's programs (M_Buffered.v) on such a buffer. *)
Fixpoint run_spilling {A} (p : wprog A) (q : spilling) : res A * spilling :=
  match p with
  | WRet r => (r, q)
  | WWrite bs k => match buf_write bs q with (Ok _, q') => run_spilling k q' | (Err e, q') => (Err e, q') | (Panic, q') => (Panic, q') end
  | WTell k => match buf_then sink_tell q with (Ok n, q') => run_spilling (k n) q' | (Err e, q') => (Err e, q') | (Panic, q') => (Panic, q') end
  | WSeek p k => match buf_then (sink_seek p) q with (Ok _, q') => run_spilling k q' | (Err e, q') => (Err e, q') | (Panic, q') => (Panic, q') end
  | WFlush k => match buf_then sink_flush q with (Ok _, q') => run_spilling k q' | (Err e, q') => (Err e, q') | (Panic, q') => (Panic, q') end
  end.
(** A writing session that owns the buffer: when it is over the buffer is dropped. *)
Definition spilling_session (cap : N) (cuts : N -> list N) (c : cfg) (t : rty) (d : dtype) (o : order) (h : shape_hint) (seekable : bool) (vs : list val) (e : ending) (y : shaky)
  : res (list (res unit) * res unit) * sink :=
  let '(r, q) := session_on (@run_spilling) c t d o h seekable vs e (buf_new cap cuts y) in (r, buf_drop q).
