(** Elements of an array by their indices. *)
From Verif Require Import M_Base M_Header M_Read M_Serialize S_Shape S_Reader.
Open Scope N_scope.

(** The indices of all elements in the order in which they are stored. *)
Definition storage_order (o : order) (shape : list N) : list (list N) :=
  match o with OrderC => row_major shape | OrderFortran => column_major shape end.

(** The last thing seen. *)
Definition finally (l : list obs) : obs := last l OEnd.
