(** Reading a type description on a stack that holds a given number of calls. *)
From Verif Require Import M_Base M_TypeStr M_PyLit M_Header.
Open Scope N_scope.

(** The result of a computation, or [None] if the stack is exhausted (the process ends). *)
Definition stacked (A : Type) : Type := option (res A).
(** The [?] operator. *)
Definition sbind {A B} (m : stacked A) (k : A -> stacked B) : stacked B :=
  match m with None => None | Some (Ok a) => k a | Some (Err e) => Some (Err e) | Some Panic => Some Panic end.

(** src/header.rs:154-172; [rec] is [DType::from_descr] with what is left of the stack. *)
Definition tuple_with (rec : value -> stacked dtype) (tup : list value) : stacked (text * dtype) :=
  match tup with
  | [n; d] =>
    match n with
    | VString name => sbind (rec d) (fun ty => Some (Ok (name, ty)))
    | _ => Some (Err (EData (lit "list entry must contain a string for id")))
    end
  | [n; d; s] =>
    match n with
    | VString name => sbind (rec d) (fun ty => sbind (Some (convert_value_to_shape s)) (fun shape => Some (Ok (name, wrap_arrays shape ty))))
    | _ => Some (Err (EData (lit "list entry must contain a string for id")))
    end
  | _ => Some (Err (EData (lit "list entry must contain 2 or 3 items")))
  end.
(** src/header.rs:143-152 *)
Fixpoint fields_with (rec : value -> stacked dtype) (l : list value) : stacked (list (text * dtype)) :=
  match l with
  | [] => Some (Ok [])
  | e :: l' =>
    sbind (match e with
           | VList tup | VTuple tup => tuple_with rec tup
           | _ => Some (Err (EData (lit "list must contain list or tuple")))
           end) (fun f => sbind (fields_with rec l') (fun fs => Some (Ok (f :: fs))))
  end.
(** src/header.rs:84-91 with room for [n] nested calls of [DType::from_descr].  (Simplified: the calls in between take no room of their own; py_literal, which parses recursively as well, is not considered.) *)
Fixpoint from_descr_within (n : nat) (v : value) : stacked dtype :=
  match n with
  | O => None
  | S n' =>
    match v with
    | VString s => sbind (Some (convert_string_to_type_str s)) (fun t => Some (Ok (DPlain t)))
    | VList l => sbind (fields_with (from_descr_within n') l) (fun fs => Some (Ok (DRecord fs)))
    | _ => Some (Err (EData (lit "must be string or list")))
    end
  end.

(** src/header.rs:116-126 with room for [n] nested calls of [DType::num_bytes]; every field is asked, also after one without a size. *)
Fixpoint num_bytes_within (n : nat) (c : cfg) (d : dtype) : option (option N) :=
  match n with
  | O => None
  | S n' =>
    match d with
    | DPlain t => Some (ts_num_bytes c t)
    | DArray len inner =>
      match num_bytes_within n' c inner with
      | None => None
      | Some None => Some None
      | Some (Some b) => Some (match usize_try_from c len with None => None | Some m => usize_checked_mul c b m end)
      end
    | DRecord fields =>
      fold_left (fun acc f =>
        match acc with
        | None => None
        | Some a =>
          match num_bytes_within n' c (snd f) with
          | None => None
          | Some b => Some (match a, b with Some x, Some y => usize_checked_add c x y | _, _ => None end)
          end
        end) fields (Some (Some 0))
    end
  end.
