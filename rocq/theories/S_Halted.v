(** What an archive of arrays holds when its output gave out before everything was saved. *)
From Verif Require Import M_Base M_Text M_TypeStr M_IO M_Npz S_Write S_Npz.
Open Scope N_scope.

(** [l]: what was to be saved; [whole]: the entries of a run to the end.  Left behind are the first of these entries, each whole, and not all
    of them; after them possibly a beginning of one more.  That one can be complete only if its writer was finished, not just dropped:
    then what failed was the flush. *)
Inductive halted (l : list saved) (whole : archive) : archive -> Prop :=
| halted_between done next rest : whole = done ++ next :: rest -> halted l whole done
| halted_within l1 x l2 done name part missing rest : l = l1 ++ x :: l2 -> whole = done ++ (name, part ++ missing) :: rest -> List.length l1 = List.length done ->
    (missing = [] -> sv_ending x = Finished) -> halted l whole (done ++ [(name, part)]).
(** For every entry: starting it, its bytes, flushing it, at most twice. *)
Definition enough (a : archive) : N := fold_right (fun e n => 1 + lenN (snd e) + 2 + n) 0 a.
