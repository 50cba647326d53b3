(** src/write.rs over an output whose calls may fail now and work again later (a disk that is full for a while, a network share). *)
From Verif Require Import M_Base M_IO M_Header M_Read M_Serialize M_Write M_Buffered.
Open Scope N_scope.

(** The output (W: Write + Seek in src/write.rs:396-403) with what will happen to the calls made on it, one entry for each: [None], it works; [Some j], it fails,
    a write after [j] bytes.  Beyond the plan everything works.  Simplified: one [write_all] of the model is one entry even if the code makes several (an item is
    written in pieces); a failed seek leaves the position alone; all errors of the output are one. *)
Record shaky := { y_out : sink; y_plan : list (option N) }.
(** [write_all]: without bytes there is no call; a failure that would come after the last byte does not come. *)
Definition shaky_write (bs : bytes) (y : shaky) : res unit * shaky :=
  match bs with
  | [] => (Ok tt, y)
  | _ =>
    match y_plan y with
    | Some j :: plan =>
      if j <? lenN bs then (Err ESink, {| y_out := snd (sink_write (takeN j bs) (y_out y)); y_plan := plan |})
      else let '(r, s) := sink_write bs (y_out y) in (r, {| y_out := s; y_plan := plan |})
    | plan => let '(r, s) := sink_write bs (y_out y) in (r, {| y_out := s; y_plan := tl plan |})
    end
  end.
(** [seek] and [flush] *)
Definition shaky_call {A} (f : sink -> res A * sink) (y : shaky) : res A * shaky :=
  match y_plan y with
  | Some _ :: plan => (Err ESink, {| y_out := y_out y; y_plan := plan |})
  | plan => let '(r, s) := f (y_out y) in (r, {| y_out := s; y_plan := tl plan |})
  end.
(** The writer's programs (M_Buffered.v) on such an output. *)
Fixpoint run_shaky {A} (p : wprog A) (y : shaky) : res A * shaky :=
  match p with
  | WRet r => (r, y)
  | WWrite bs k => match shaky_write bs y with (Ok _, y') => run_shaky k y' | (Err e, y') => (Err e, y') | (Panic, y') => (Panic, y') end
  | WTell k => match shaky_call sink_tell y with (Ok n, y') => run_shaky (k n) y' | (Err e, y') => (Err e, y') | (Panic, y') => (Panic, y') end
  | WSeek p k => match shaky_call (sink_seek p) y with (Ok _, y') => run_shaky k y' | (Err e, y') => (Err e, y') | (Panic, y') => (Panic, y') end
  | WFlush k => match shaky_call sink_flush y with (Ok _, y') => run_shaky k y' | (Err e, y') => (Err e, y') | (Panic, y') => (Panic, y') end
  end.
