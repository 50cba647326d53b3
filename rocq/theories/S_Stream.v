(** Specification of several arrays in one stream. *)
From Verif Require Import M_Base M_TypeStr M_IO M_Header M_Read M_Serialize M_NpyReader M_Write S_TypeStr S_DType S_Shape S_Elem S_Strings S_Write.
Open Scope N_scope.

(** An array to be stored: how it is written and its items. *)
Record array := { a_type : rty; a_dtype : dtype; a_order : order; a_hint : shape_hint; a_vals : list val }.

(** Each array written with its own writer, begun where the previous one stopped. *)
Fixpoint write_arrays (c : cfg) (l : list array) (s : sink) : res unit * sink :=
  match l with
  | [] => (Ok tt, s)
  | a :: l' =>
    match write_file c (a_type a) (a_dtype a) (a_order a) (a_hint a) (output_kind (a_hint a)) (a_vals a) s with
    | (Ok _, s') => write_arrays c l' s'
    | x => x
    end
  end.

(** Each array opened and read where reading the previous one stopped. *)
Fixpoint read_arrays (c : cfg) (ts : list rty) (src : cursor) : res (list (nheader * list val)) * cursor :=
  match ts with
  | [] => (Ok [], src)
  | t :: ts' =>
    match npy_new c src with
    | (Ok f, _) =>
      match npy_into_vec c t f with
      | (Ok vs, src') => match read_arrays c ts' src' with (Ok l, src'') => (Ok ((nf_header f, vs) :: l), src'') | x => x end
      | (Err e, src') => (Err e, src')
      | (Panic, src') => (Panic, src')
      end
    | (Err e, src') => (Err e, src')
    | (Panic, src') => (Panic, src')
    end
  end.
(** The same from a stream that cannot seek. *)
Fixpoint read_stream (c : cfg) (ts : list rty) : rprog (list (nheader * list val)) :=
  match ts with
  | [] => RRet []
  | t :: ts' => let! a := into_vec_prog c t in let! l := read_stream c ts' in RRet (a :: l)
  end.

(** The values make sense for the type and dtype, and the shape is one of 64-bit numbers. *)
Definition array_ok (a : array) : Prop :=
  wf_dtype (a_dtype a) /\ Forall (has_type (a_type a)) (a_vals a) /\ lenN (a_vals a) < 2 ^ 64 /\ hint_ok (a_hint a).
(** The machine can read it. *)
Definition array_readable (c : cfg) (a : array) : Prop :=
  accepts (c_usize_max c) Reading (a_type a) (a_dtype a) /\ sizes_fit (c_usize_max c) (a_dtype a)
  /\ strings_fit (c_usize_max c) (a_dtype a).
(** What was read is the array. *)
Definition array_read (a : array) (x : nheader * list val) : Prop :=
  h_dtype (fst x) = a_dtype a /\ h_order (fst x) = a_order a /\ final_shape (a_hint a) (a_order a) (lenN (a_vals a)) = Some (h_shape (fst x))
  /\ snd x = map (read_back (a_type a) (a_dtype a)) (a_vals a)
  /\ (Forall (survives (a_type a) (a_dtype a)) (a_vals a) -> snd x = a_vals a).
