(** Reading headers with any parser of Python literals in the place of the py_literal crate (src/header.rs:233-242 calls its [FromStr]).
    Nothing is assumed of the parser here: it may refuse with any explanation, and even panic.  The functions are those of M_Header.v and M_Read.v
    over all of [py_literal::Value]. *)
From Verif Require Import M_Base M_Text M_TypeStr M_TypeErr M_PyLit M_IO M_Header M_Read M_Serialize M_DTypeErr M_NpyReader.
Open Scope N_scope.

(** py_literal::Value, all of it; floats as bit patterns. *)
Inductive pyvalue :=
| LString (s : text)
| LBytes (bs : list N)
| LInteger (z : Z)
| LFloat (bits : N)
| LComplex (re im : N)
| LTuple (l : list pyvalue)
| LList (l : list pyvalue)
| LDict (l : list (pyvalue * pyvalue))
| LSet (l : list pyvalue)
| LBool (b : bool)
| LNone.
(** What a parser can do with a text: the crate's [FromStr::from_str] with [ParseError::to_string] (src/header.rs:240-241). *)
Inductive answer := Parsed (v : pyvalue) | Refused (explanation : text) | Crashed.
Definition parser := text -> answer.

(** src/header.rs:182-194 *)
Definition lit_shape_integer (v : pyvalue) : res N :=
  match v with
  | LInteger z =>
    if (z <? 0)%Z then Err (EData (lit "dimension cannot be negative"))
    else if (z <? 2 ^ 64)%Z then Ok (Z.to_N z)
    else Err (EData (lit "dimension cannot be larger than u64"))
  | _ => Err (EData (lit "dimension must be an integer"))
  end.
(** src/header.rs:174-180,205-209 *)
Definition lit_shape (v : pyvalue) : res (list N) :=
  match v with
  | LList l | LTuple l => mapM lit_shape_integer l
  | _ => Err (EData (lit "shape must be list or tuple"))
  end.
(** src/header.rs:84-91,143-172 *)
Fixpoint lit_from_descr (v : pyvalue) : res dtype :=
  match v with
  | LString s => let* t := convert_string_to_type_str s in Ok (DPlain t)
  | LList l =>
    let* fs :=
      (fix go (l : list pyvalue) : res (list (text * dtype)) :=
         match l with
         | [] => Ok []
         | e :: l' =>
           let* f :=
             match e with
             | LList tup | LTuple tup =>
               match tup with
               | [n; d] =>
                 match n with
                 | LString name => let* ty := lit_from_descr d in Ok (name, ty)
                 | _ => Err (EData (lit "list entry must contain a string for id"))
                 end
               | [n; d; s] =>
                 match n with
                 | LString name =>
                   let* ty := lit_from_descr d in
                   let* shape := lit_shape s in
                   Ok (name, wrap_arrays shape ty)
                 | _ => Err (EData (lit "list entry must contain a string for id"))
                 end
               | _ => Err (EData (lit "list entry must contain 2 or 3 items"))
               end
             | _ => Err (EData (lit "list must contain list or tuple"))
             end in
           let* fs := go l' in Ok (f :: fs)
         end) l in
    Ok (DRecord fs)
  | _ => Err (EData (lit "must be string or list"))
  end.
(** src/header.rs:233-242 *)
Definition parse_text_with (p : parser) (bs : bytes) : res pyvalue :=
  match from_utf8 (strip_newline bs) with
  | None => Err (EData (lit "could not parse utf-8"))
  | Some t =>
    match p t with
    | Refused explanation => Err (EData (lit "could not parse Python expression: " ++ explanation))
    | Parsed v => Ok v
    | Crashed => Panic
    end
  end.
(** src/header.rs:95-98 *)
Definition dtype_parse_with (p : parser) (source : text) : res dtype :=
  let* v := parse_text_with p (utf8 source) in lit_from_descr v.
(** src/header.rs:222-231 *)
Definition read_header_with (p : parser) : rprog pyvalue :=
  let! ph := read_pre_header in
  let! txt := read_exact (snd ph) in
  rlift (parse_text_with p txt).

(** src/read.rs:343-349 *)
Fixpoint lit_string_keys (l : list (pyvalue * pyvalue)) : res (list (text * pyvalue)) :=
  match l with
  | [] => Ok []
  | (k, v) :: l' =>
    match k with
    | LString s => let* r := lit_string_keys l' in Ok ((s, v) :: r)
    | _ => Err (EData (lit "key is not string"))
    end
  end.
(** [HashMap::get] after inserting the pairs in order. *)
Fixpoint lit_get (key : text) (l : list (text * pyvalue)) : option pyvalue :=
  match l with
  | [] => None
  | (k, v) :: l' =>
    match lit_get key l' with
    | Some w => Some w
    | None => if eqb_list k key then Some v else None
    end
  end.
(** src/read.rs:351-353 *)
Definition lit_expect_key (key : text) (l : list (text * pyvalue)) : res pyvalue :=
  match lit_get key l with Some v => Ok v | None => Err (EData (lit "dict is missing key '" ++ key ++ lit "'")) end.
(** src/read.rs:343-365 *)
Definition lit_interpret (c : cfg) (header : pyvalue) : res nheader :=
  match header with
  | LDict pairs =>
    let* dict := lit_string_keys pairs in
    let* fo := lit_expect_key (lit "fortran_order") dict in
    let* o := match fo with
              | LBool b => Ok (from_fortran_order b)
              | _ => Err (EData (lit "'fortran_order' value is not a bool"))
              end in
    let* sv := lit_expect_key (lit "shape") dict in
    let* shape := lit_shape sv in
    let* dv := lit_expect_key (lit "descr") dict in
    let* d := lit_from_descr dv in
    from_parts c d shape o
  | _ => Err (EData (lit "expected a python dict literal"))
  end.
(** src/read.rs:172,340-366 *)
Definition open_with (p : parser) (c : cfg) : rprog nheader :=
  let! v := read_header_with p in
  rlift (lit_interpret c v).
(** src/read.rs:219-222 *)
Definition npy_new_with (p : parser) (c : cfg) (src : cursor) : res npy_file * cursor :=
  match run_cursor (open_with p c) src with
  | (Ok h, src') => (Ok {| nf_header := h; nf_src := src' |}, src')
  | (Err e, src') => (Err e, src')
  | (Panic, src') => (Panic, src')
  end.
