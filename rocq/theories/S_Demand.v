(** What reading demands of memory. *)
From Verif Require Import M_Base.
Open Scope N_scope.

Definition total (l : list N) : N := fold_right N.add 0 l.
