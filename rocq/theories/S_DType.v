(** Well-formed DTypes: what a Rust program can hold in a [DType] (field names are [String]s, array lengths are [u64]s,
    type strings come from the parser or from [with_auto_endianness]). *)
From Verif Require Import M_Base M_TypeStr M_Header S_TypeStr S_Text.
Open Scope N_scope.

Fixpoint wf_dtype (d : dtype) : Prop :=
  match d with
  | DPlain t => legal t
  | DArray n inner => n < 2 ^ 64 /\ wf_dtype inner
  | DRecord fields =>
    (fix go (fs : list (text * dtype)) : Prop :=
       match fs with
       | [] => True
       | (name, ty) :: fs' => (forall ch, In ch name -> scalar_value ch = true) /\ wf_dtype ty /\ go fs'
       end) fields
  end.

(** A DType that can describe a whole file. *)
Definition top_level (d : dtype) : Prop := match d with DArray _ _ => False | _ => True end.
