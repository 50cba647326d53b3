(** What it means for a struct to have fields of these names and types. *)
From Verif Require Import M_Base M_Text M_Serialize M_Derive.
Open Scope N_scope.

(** An identifier as it is written, and the name it stands for: r#type stands for type.  There is no # in a name. *)
Definition spelled (x : ident) (name : text) : Prop := ~ In 35 name /\ (x = name \/ x = lit "r#" ++ name).
(** A struct with named fields, or without fields, has these. *)
Definition declares (d : item_data) (fields : list (text * rty)) : Prop :=
  match d with
  | StructNamed fs => Forall2 (fun f g => spelled (fst f) (fst g) /\ snd f = snd g) fs fields
  | StructTuple [] | StructUnit => fields = []
  | _ => False
  end.
(** Rust demands that the names differ. *)
Definition legal (d : item_data) (fields : list (text * rty)) : Prop := declares d fields /\ NoDup (map fst fields).
(** No field but the last is called as a variable of the generated function. *)
Definition names_free (fields : list (text * rty)) : Prop :=
  forall before after f, fields = before ++ f :: after -> after <> [] -> fst f <> lit "reader" /\ fst f <> lit "func".
