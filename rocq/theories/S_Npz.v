(** Specification of archives: what was saved, and what saving is. *)
From Verif Require Import M_Base M_Text M_TypeStr M_PyLit M_IO M_Header M_Read M_Serialize M_NpyReader M_Write M_Npz S_TypeStr S_DType S_Shape S_Elem S_Write.
Open Scope N_scope.

Record saved := { sv_name : text; sv_type : rty; sv_dtype : dtype; sv_order : order; sv_shape : list N; sv_vals : list val; sv_ending : ending }.
Definition save (c : cfg) (x : saved) : npz_writer -> res unit * npz_writer :=
  npz_array (sv_name x)
    (match sv_ending x with
     | Finished => write_file c (sv_type x) (sv_dtype x) (sv_order x) (NDimensional (sv_shape x)) false (sv_vals x)
     | Dropped => extend_and_drop c (sv_type x) (sv_dtype x) (sv_order x) (sv_shape x) (sv_vals x)
     end).
Fixpoint save_all (c : cfg) (l : list saved) (z : npz_writer) : res unit * npz_writer :=
  match l with
  | [] => (Ok tt, z)
  | x :: l' => (let% _u := save c x in save_all c l') z
  end.

(** An array: values of one type, as many as the shape says, whose size is not beyond 64 bits. *)
Definition is_array (x : saved) : Prop :=
  wf_dtype (sv_dtype x) /\ Forall (has_type (sv_type x)) (sv_vals x) /\ Forall (fun n => n < 2 ^ 64) (sv_shape x) /\ no_overflow (sv_shape x)
  /\ lenN (sv_vals x) = count (sv_shape x).
(** A machine that can write it; a machine that can read it. *)
Definition can_write (c : cfg) (x : saved) : Prop :=
  top_level (sv_dtype x) /\ strings_fit (c_usize_max c) (sv_dtype x) /\ accepts (c_usize_max c) Writing (sv_type x) (sv_dtype x)
  /\ Forall (fun v => exists b, encode (sv_type x) (sv_dtype x) v = Some b) (sv_vals x) /\ short_header (sv_dtype x) (NDimensional (sv_shape x)).
Definition can_read (c : cfg) (x : saved) : Prop :=
  accepts (c_usize_max c) Reading (sv_type x) (sv_dtype x) /\ sizes_fit (c_usize_max c) (sv_dtype x) /\ strings_fit (c_usize_max c) (sv_dtype x).

(** Looking up a name gives a file with this header and these values. *)
Definition found (c : cfg) (a : archive) (name : text) (t : rty) (d : dtype) (o : order) (shape : list N) (vs : list val) : Prop :=
  exists f, by_name c a name = Ok (Some f) /\ h_dtype (nf_header f) = d /\ h_order (nf_header f) = o /\ h_shape (nf_header f) = shape
  /\ fst (npy_into_vec c t f) = Ok vs.
