(** What an archive holds when its output gave out before everything was written. *)
From Verif Require Import M_Base M_Text M_TypeStr M_IO M_Npz M_Sparse S_Sparse.
Open Scope N_scope.

(** [whole]: what a run to the end would have added, in order.  Left behind are the first of these entries, each whole, and not all of them;
    after them possibly one more, of which at least one byte is missing. *)
Inductive stopped (whole : archive) : archive -> Prop :=
| stopped_between done next rest : whole = done ++ next :: rest -> stopped whole done
| stopped_within done name part missing rest : whole = done ++ (name, part ++ missing) :: rest -> missing <> [] -> stopped whole (done ++ [(name, part)]).

(** The names of the arrays of a matrix in each format, in the order of writing. *)
Definition members (f : format) : list text :=
  match f with
  | FCoo => [lit "format"; lit "shape"; lit "row"; lit "col"; lit "data"]
  | FDia => [lit "format"; lit "shape"; lit "offsets"; lit "data"]
  | FCsr | FCsc | FBsr => [lit "format"; lit "shape"; lit "indices"; lit "indptr"; lit "data"]
  end.
(** For every entry: starting it, its bytes, flushing it. *)
Definition needed (a : archive) : N := fold_right (fun e n => 1 + lenN (snd e) + 1 + n) 0 a.
