(** Types whose undecodable items are read to their end before this is noticed. *)
From Verif Require Import M_Base M_Text M_TypeStr M_IO M_Header M_Read M_Serialize M_NpyReader S_Elem S_Fault S_Reader.
Open Scope N_scope.

(** Every block of an item's size that is no item is found out by its last byte. *)
Definition only_at_end (t : rty) (d : dtype) : Prop :=
  forall b, lenN b = size d -> bytes_ok b -> decode t d b = None -> exists msg, unreadable t d b msg.

(** The same in terms of the types.  [total t d]: every block is an item. *)
Fixpoint total (t : rty) (d : dtype) {struct t} : Prop :=
  match t, d with
  | RBool, _ => False
  | (RVecU32 | RArrU32 _ | RVecChar | RArrChar _ | RString | RArrString _), DPlain ts => ts_size ts = 0
  | RArray n t', DArray _ d' => n = 0 \/ total t' d'
  | RStruct fs, DRecord ds =>
    (fix go (fs : list (text * rty)) (ds : list (text * dtype)) : Prop :=
       match fs, ds with
       | (_, t') :: fs', (_, d') :: ds' => total t' d' /\ go fs' ds'
       | _, _ => True
       end) fs ds
  | _, _ => True
  end.
(** Nothing but the last part of an item can be wrong: strings of UTF-32 have at most one character, arrays of parts that can be wrong have
    at most one element, and in records only empty members follow a member that can be wrong. *)
Fixpoint late (t : rty) (d : dtype) {struct t} : Prop :=
  match t, d with
  | (RVecU32 | RArrU32 _ | RVecChar | RArrChar _), DPlain ts => ts_size ts <= 1
  | RString, DPlain ts => ts_char ts = TUnicodeStr -> ts_size ts <= 1
  | RArray n t', DArray _ d' => n = 0 \/ total t' d' \/ n = 1 /\ late t' d'
  | RStruct fs, DRecord ds =>
    (fix go (fs : list (text * rty)) (ds : list (text * dtype)) : Prop :=
       match fs, ds with
       | (_, t') :: fs', (_, d') :: ds' => total t' d' /\ go fs' ds' \/ late t' d' /\ Forall (fun f => size (snd f) = 0) ds'
       | _, _ => True
       end) fs ds
  | _, _ => True
  end.

(** All items of the dtype are the same value. *)
Definition one_value (t : rty) (d : dtype) : Prop := forall b b' v v', lenN b = size d -> bytes_ok b -> lenN b' = size d -> bytes_ok b' ->
  decode t d b = Some v -> decode t d b' = Some v' -> v = v'.
