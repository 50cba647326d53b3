(** Shapes: element counts and storage orders, without reference to the model's functions. *)
From Verif Require Import M_Base.
Open Scope N_scope.

(** Mathematical number of elements. *)
Definition count (shape : list N) : N := fold_right N.mul 1 shape.

(** No product of leading axes and no product of trailing axes exceeds a [u64]. *)
Definition no_overflow (shape : list N) : Prop :=
  forall k, count (firstn k shape) < 2 ^ 64 /\ count (skipn k shape) < 2 ^ 64.

(** [0; 1; ...; n-1]. *)
Definition upto (n : N) : list N := map N.of_nat (seq 0 (N.to_nat n)).

(** All multi-indices of a shape, last axis varying fastest (C order). *)
Fixpoint row_major (shape : list N) : list (list N) :=
  match shape with
  | [] => [[]]
  | n :: s => flat_map (fun i => map (cons i) (row_major s)) (upto n)
  end.

(** All multi-indices of a shape, first axis varying fastest (Fortran order). *)
Fixpoint column_major (shape : list N) : list (list N) :=
  match shape with
  | [] => [[]]
  | n :: s => flat_map (fun js => map (fun i => i :: js) (upto n)) (column_major s)
  end.

(** Flat position of a multi-index under given strides. *)
Fixpoint flat_index (strides idx : list N) : N :=
  match strides, idx with
  | s :: ss, i :: is => s * i + flat_index ss is
  | _, _ => 0
  end.

(** Multi-indices within bounds. *)
Definition in_bounds (shape idx : list N) : Prop := Forall2 (fun n i => i < n) shape idx.
