(** Opening a file, from its bytes to the numbers in the header: independent of the model's reader. *)
From Verif Require Import M_Base M_TypeStr M_PyLit M_Header M_Read S_Text S_TypeStr S_Python S_DType S_Shape S_Header S_Elem S_Dict.
Open Scope N_scope.

(** Header text: UTF-8, possibly with a newline at the end, otherwise a Python literal. *)
Definition header_text (txt : bytes) (v : value) : Prop :=
  exists src, Forall (fun ch => scalar_value ch = true) src /\ (txt = utf8_string src \/ txt = utf8_string src ++ [10]) /\ python_literal src v.

(** All products of leading (trailing) axes fit in a [u64]. *)
Definition leading_fit (shape : list N) : Prop := forall k, count (firstn k shape) < 2 ^ 64.
Definition trailing_fit (shape : list N) : Prop := forall k, count (skipn k shape) < 2 ^ 64.
(** The distance between neighbours along each axis. *)
Definition steps (o : order) (shape : list N) : list N :=
  map (fun k => match o with OrderC => count (skipn (S k) shape) | OrderFortran => count (firstn k shape) end) (seq 0 (List.length shape)).
(** Items have a size the machine can count, or are Python objects. *)
Definition countable (c : cfg) (d : dtype) : Prop := has_object d \/ sizes_fit (c_usize_max c) d.

(** The numbers of a header with this dtype, shape and order. *)
Definition numbers (c : cfg) (d : dtype) (shape : list N) (o : order) (h : nheader) : Prop :=
  h_dtype h = d /\ h_shape h = shape /\ h_order h = o
  /\ h_n_records h = count shape mod 2 ^ 64
  /\ h_strides h = map (fun n => n mod 2 ^ 64) (steps o shape)
  /\ (h_pickled h = true <-> has_object d)
  /\ (has_object d -> h_item_size h = None) /\ (~ has_object d -> h_item_size h = Some (size d)).
(** Builds that check for overflow only open files whose products all fit (in C order those of trailing axes as well). *)
Definition no_overflow_met (c : cfg) (shape : list N) (o : order) : Prop :=
  c_ovf_panics c = true -> leading_fit shape /\ (o = OrderC -> trailing_fit shape).
(** When opening panics: such a build meets such a product.  (The size of the items is computed before the strides.) *)
Definition overflow_panic (c : cfg) (d : dtype) (shape : list N) (o : order) : Prop :=
  c_ovf_panics c = true /\ (~ leading_fit shape \/ (countable c d /\ o = OrderC /\ ~ trailing_fit shape)).
