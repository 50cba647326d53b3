(** src/read.rs: interpreting the header. *)
From Verif Require Import M_Base M_Text M_TypeStr M_PyLit M_IO M_Header.
Open Scope N_scope.

(** src/read.rs:203-215 *)
Inductive order := OrderC | OrderFortran.
Definition from_fortran_order (b : bool) : order := if b then OrderFortran else OrderC.

(** src/read.rs:153-164 *)
Record nheader := {
  h_dtype : dtype;
  h_shape : list N;
  h_strides : list N;
  h_order : order;
  h_n_records : N;
  h_item_size : option N;
  h_pickled : bool
}.

(** [shape.iter().product()] on [u64] (src/read.rs:369, src/write.rs:613). *)
Fixpoint product_from (c : cfg) (acc : N) (l : list N) : res N :=
  match l with
  | [] => Ok acc
  | x :: l' => let* a := u64_mul c acc x in product_from c a l'
  end.
Definition product (c : cfg) (l : list N) : res N := product_from c 1 l.

(** src/read.rs:548-550: the scan multiplies once per element, including the last. *)
Fixpoint prefix_products_from (c : cfg) (acc : N) (l : list N) : res (list N) :=
  match l with
  | [] => Ok []
  | x :: l' =>
    let* a := u64_mul c acc x in
    let* r := prefix_products_from c a l' in
    Ok (acc :: r)
  end.
Definition prefix_products (c : cfg) (l : list N) : res (list N) := prefix_products_from c 1 l.

(** src/read.rs:537-546 *)
Definition strides (c : cfg) (o : order) (shape : list N) : res (list N) :=
  match o with
  | OrderC => let* s := prefix_products c (rev shape) in Ok (rev s)
  | OrderFortran => prefix_products c shape
  end.

(** src/read.rs:368-380 *)
Definition from_parts (c : cfg) (d : dtype) (shape : list N) (o : order) : res nheader :=
  let* n := product c shape in
  let* item_size :=
    if uses_pickled_array d then Ok None
    else match num_bytes c d with
         | Some b => Ok (Some b)
         | None => Err (EData (lit "dtype is larger than usize!"))
         end in
  let* s := strides c o shape in
  Ok {| h_dtype := d; h_shape := shape; h_strides := s; h_order := o; h_n_records := n;
        h_item_size := item_size; h_pickled := uses_pickled_array d |}.

(** src/read.rs:343-349: collecting into a [HashMap]; only the string keys matter and the last value wins. *)
Fixpoint string_keys (l : list (value * value)) : res (list (text * value)) :=
  match l with
  | [] => Ok []
  | (k, v) :: l' =>
    match k with
    | VString s => let* r := string_keys l' in Ok ((s, v) :: r)
    | _ => Err (EData (lit "key is not string"))
    end
  end.
(** [HashMap::get] after inserting the pairs in order. *)
Fixpoint map_get (key : text) (l : list (text * value)) : option value :=
  match l with
  | [] => None
  | (k, v) :: l' =>
    match map_get key l' with
    | Some w => Some w
    | None => if eqb_list k key then Some v else None
    end
  end.
(** src/read.rs:351-353 *)
Definition expect_key (key : text) (l : list (text * value)) : res value :=
  match map_get key l with Some v => Ok v | None => Err (EData (lit "dict is missing key '" ++ key ++ lit "'")) end.

(** src/read.rs:343-365 *)
Definition interpret_header (c : cfg) (header : value) : res nheader :=
  match header with
  | VDict pairs =>
    let* dict := string_keys pairs in
    let* fo := expect_key (lit "fortran_order") dict in
    let* o := match fo with
              | VBool b => Ok (from_fortran_order b)
              | _ => Err (EData (lit "'fortran_order' value is not a bool"))
              end in
    let* sv := expect_key (lit "shape") dict in
    let* shape := convert_value_to_shape sv in
    let* dv := expect_key (lit "descr") dict in
    let* d := from_descr dv in
    from_parts c d shape o
  | _ => Err (EData (lit "expected a python dict literal"))
  end.

(** src/read.rs:172,340-366 *)
Definition read_and_interpret (c : cfg) : rprog nheader :=
  let! v := read_header in
  rlift (interpret_header c v).
(** The same with [read_header_alloc]. *)
Definition read_and_interpret_alloc (c : cfg) : rprog nheader :=
  let! v := read_header_alloc c in
  rlift (interpret_header c v).
