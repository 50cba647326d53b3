(** Members of a record that are arrays of any number of axes. *)
From Verif Require Import M_Base M_Header M_Serialize S_Shape.
Open Scope N_scope.

(** [[[t; n3]; n2]; n1] for the shape [(n1, n2, n3)], and the dtype of a member of that shape. *)
Definition nested_type (shape : list N) (t : rty) : rty := fold_right RArray t shape.
Definition nested_dtype (shape : list N) (d : dtype) : dtype := fold_right DArray d shape.
(** The value with the element [f idx] at the index [idx]. *)
Fixpoint nested (shape : list N) (f : list N -> val) : val :=
  match shape with
  | [] => f []
  | n :: s => XSeq (map (fun i => nested s (fun idx => f (i :: idx))) (upto n))
  end.
(** How many elements come before the one at an index, the last axis varying fastest. *)
Fixpoint row_offset (shape idx : list N) : N :=
  match shape, idx with
  | _ :: s, i :: is => i * count s + row_offset s is
  | _, _ => 0
  end.
(** Its bytes, if each element takes [size] of them. *)
Definition element_at (shape : list N) (size : N) (idx : list N) (bs : bytes) : bytes := takeN size (dropN (row_offset shape idx * size) bs).
