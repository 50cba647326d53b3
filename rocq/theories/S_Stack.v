(** How large and how deeply nested a DType is. *)
From Verif Require Import M_Base M_Header.
Open Scope N_scope.

(** The number of types a DType is made of, itself included. *)
Fixpoint types (d : dtype) : N :=
  match d with
  | DPlain _ => 1
  | DArray _ inner => 1 + types inner
  | DRecord fields => 1 + fold_right (fun f n => types (snd f) + n) 0 fields
  end.
(** The number of types on the longest way from a DType to one it is made of, arrays not counted. *)
Fixpoint nesting (d : dtype) : N :=
  match d with
  | DPlain _ => 1
  | DArray _ inner => nesting inner
  | DRecord fields => 1 + fold_right (fun f n => N.max (nesting (snd f)) n) 0 fields
  end.
(** The same with arrays counted. *)
Fixpoint height (d : dtype) : N :=
  match d with
  | DPlain _ => 1
  | DArray _ inner => 1 + height inner
  | DRecord fields => 1 + fold_right (fun f n => N.max (height (snd f)) n) 0 fields
  end.
