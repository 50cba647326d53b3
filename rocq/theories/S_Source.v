(** Sources that fail. *)
From Verif Require Import M_Base M_IO M_Serialize M_Source.
Open Scope N_scope.

(** A source that delivers what the schedule [s] says and then goes on with [more]. *)
Definition delivers (s : schedule) (more : source) : source :=
  map (fun x => match x with Some bs => Chunk bs | None => Interrupted end) s ++ more.
(** The program ends within [data], whatever follows: with [r], leaving [rest]. *)
Definition ends_within {A} (p : rprog A) (data : bytes) (r : res A) (rest : bytes) : Prop := forall more, run p (data ++ more) = (r, rest ++ more).
(** A source of [bs] that fails with [e] after [k] bytes and then goes on with [post]. *)
Definition fails_after (k : N) (bs : bytes) (e : N) (post s : source) : Prop :=
  exists pre, Forall (fun x => x <> Some []) pre /\ sched_bytes pre = takeN k bs /\ s = delivers pre (Fault e :: post).
(** A source of [bs], without errors. *)
Definition gives (bs : bytes) (s : source) : Prop := exists pre, Forall (fun x => x <> Some []) pre /\ sched_bytes pre = bs /\ s = delivers pre [].
(** What a caller gets from [next]: an item. *)
Definition item (v : val) : option (outcome val) := Some (Done (Ok v)).
Definition is_item (x : option (outcome val)) : bool := match x with Some (Done (Ok _)) => true | _ => false end.
