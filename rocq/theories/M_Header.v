(** src/header.rs: DTypes, their textual form, and reading the header of a file. *)
From Verif Require Import M_Base M_Text M_TypeStr M_TypeErr M_PyLit M_IO.
Open Scope N_scope.

(** src/header.rs:14-51 *)
Inductive dtype :=
| DPlain (t : type_str)
| DArray (n : N) (inner : dtype)
| DRecord (fields : list (text * dtype)).

(** [str::replace] with a single-character pattern. *)
Definition replace_char (c : N) (by_ : text) (s : text) : text :=
  flat_map (fun x => if x =? c then by_ else [x]) s.

(** src/header.rs:318-330 (PyUtf8StringLiteral) *)
Definition py_str_lit (s : text) : text :=
  let s := replace_char 92 [92; 92] s in          (* backslash *)
  let s := replace_char 39 [92; 39] s in          (* single quote *)
  let s := replace_char 13 [92; chr "r"] s in
  let s := replace_char 10 [92; chr "n"] s in
  lit "'" ++ s ++ lit "'".

(** src/header.rs:72 *)
Fixpoint shape_str (l : list N) : text :=
  match l with
  | [] => []
  | n :: l' => dec n ++ lit "," ++ shape_str l'
  end.

(** src/header.rs:196-203 *)
Fixpoint extract_full_array_shape (d : dtype) : list N * dtype :=
  match d with
  | DArray n inner => let '(s, e) := extract_full_array_shape inner in (n :: s, e)
  | _ => ([], d)
  end.

(** Both components of [extract_full_array_shape d], the second one already turned into its [descr]; this detour
    keeps the recursion structural (src/header.rs:61-77). *)
Fixpoint descr_parts (d : dtype) : list N * text :=
  match d with
  | DPlain t => ([], lit "'" ++ type_str_display t ++ lit "'")
  | DArray n inner => let '(s, e) := descr_parts inner in (n :: s, e)
  | DRecord fields =>
    ([], lit "["
         ++ (fix go (fs : list (text * dtype)) : text :=
               match fs with
               | [] => []
               | (name, ty) :: fs' =>
                 match ty with
                 | DArray _ _ =>
                   lit "(" ++ py_str_lit name ++ lit ", " ++ snd (descr_parts ty)
                   ++ lit ", (" ++ shape_str (fst (descr_parts ty)) ++ lit ")), "
                 | _ => lit "(" ++ py_str_lit name ++ lit ", " ++ snd (descr_parts ty) ++ lit "), "
                 end ++ go fs'
               end) fields
         ++ lit "]")
  end.

(** src/header.rs:58-81 *)
Fixpoint descr (d : dtype) : text :=
  match d with
  | DArray n inner => lit "<< array " ++ dec n ++ lit " of " ++ descr inner ++ lit " >>"
  | _ => snd (descr_parts d)
  end.

(** src/header.rs:182-194 *)
Definition convert_value_to_shape_integer (v : value) : res N :=
  match v with
  | VInteger z =>
    if (z <? 0)%Z then Err (EData (lit "dimension cannot be negative"))
    else if (z <? 2 ^ 64)%Z then Ok (Z.to_N z)
    else Err (EData (lit "dimension cannot be larger than u64"))
  | _ => Err (EData (lit "dimension must be an integer"))
  end.

(** src/header.rs:174-180,205-209 *)
Definition convert_value_to_shape (v : value) : res (list N) :=
  match v with
  | VList l | VTuple l => mapM convert_value_to_shape_integer l
  | _ => Err (EData (lit "shape must be list or tuple"))
  end.

(** src/header.rs:211-216 *)
Definition convert_string_to_type_str (s : text) : res type_str :=
  match type_str_parse s with
  | TsOk t => Ok t
  | TsErr e => let* m := parse_error_display e in Err (EData (lit "invalid type string: " ++ m))
  | TsPanic => Panic
  end.

(** src/header.rs:166-168: wrap the element type in one [DArray] per axis, innermost last. *)
Definition wrap_arrays (shape : list N) (d : dtype) : dtype := fold_right DArray d shape.

(** src/header.rs:84-91,143-172 *)
Fixpoint from_descr (v : value) : res dtype :=
  match v with
  | VString s => let* t := convert_string_to_type_str s in Ok (DPlain t)
  | VList l =>
    let* fs :=
      (fix go (l : list value) : res (list (text * dtype)) :=
         match l with
         | [] => Ok []
         | e :: l' =>
           let* f :=
             match e with
             | VList tup | VTuple tup =>
               match tup with
               | [n; d] =>
                 match n with
                 | VString name => let* ty := from_descr d in Ok (name, ty)
                 | _ => Err (EData (lit "list entry must contain a string for id"))
                 end
               | [n; d; s] =>
                 match n with
                 | VString name =>
                   let* ty := from_descr d in
                   let* shape := convert_value_to_shape s in
                   Ok (name, wrap_arrays shape ty)
                 | _ => Err (EData (lit "list entry must contain a string for id"))
                 end
               | _ => Err (EData (lit "list entry must contain 2 or 3 items"))
               end
             | _ => Err (EData (lit "list must contain list or tuple"))
             end in
           let* fs := go l' in Ok (f :: fs)
         end) l in
    Ok (DRecord fs)
  | _ => Err (EData (lit "must be string or list"))
  end.

(** src/header.rs:233-242.  The message of a text that is no Python literal ends with the explanation of the
    [py_literal] parser, which is left out here. *)
Definition strip_newline (bs : bytes) : bytes :=
  match rev bs with
  | c :: r => if c =? 10 then rev r else bs
  | [] => bs
  end.
Definition parse_header_text (bs : bytes) : res value :=
  match from_utf8 (strip_newline bs) with
  | None => Err (EData (lit "could not parse utf-8"))
  | Some t =>
    match parse_literal t with
    | None => Err (EData (lit "could not parse Python expression: "))
    | Some v => Ok v
    end
  end.

(** src/header.rs:95-98 *)
Definition dtype_parse (source : text) : res dtype :=
  let* v := parse_header_text (utf8 source) in from_descr v.

(** src/header.rs:106 *)
Definition as_scalar (d : dtype) : option type_str :=
  match d with DPlain t => Some t | _ => None end.

(** src/header.rs:117-126 *)
Fixpoint num_bytes (c : cfg) (d : dtype) : option N :=
  match d with
  | DPlain t => ts_num_bytes c t
  | DArray n inner =>
    match num_bytes c inner with
    | None => None
    | Some b => match usize_try_from c n with None => None | Some m => usize_checked_mul c b m end
    end
  | DRecord fields =>
    (fix go (fs : list (text * dtype)) (acc : option N) : option N :=
       match fs with
       | [] => acc
       | (_, ty) :: fs' =>
         go fs' (match acc with
                 | None => None
                 | Some a => match num_bytes c ty with None => None | Some b => usize_checked_add c a b end
                 end)
       end) fields (Some 0)
  end.

(** src/header.rs:134-140 *)
Fixpoint uses_pickled_array (d : dtype) : bool :=
  match d with
  | DPlain t => ts_pickled t
  | DArray _ inner => uses_pickled_array inner
  | DRecord fields =>
    (fix go (fs : list (text * dtype)) : bool :=
       match fs with
       | [] => false
       | (_, ty) :: fs' => uses_pickled_array ty || go fs'
       end) fields
  end.

(** src/header.rs:290-312: header properties of each format version; [vp_u32]: the length field is a [u32]. *)
Record version_props := { vp_u32 : bool; vp_utf8 : bool }.
Definition bytes_before_text (p : version_props) : N := if vp_u32 p then 12 else 10.
Definition get_version_props (v : N * N) : option version_props :=
  let '(a, b) := v in
  if (a =? 1) && (b =? 0) then Some {| vp_u32 := false; vp_utf8 := false |}
  else if (a =? 2) && (b =? 0) then Some {| vp_u32 := true; vp_utf8 := false |}
  else if (a =? 3) && (b =? 0) then Some {| vp_u32 := true; vp_utf8 := true |}
  else None.

(** src/header.rs:332-340 *)
Definition get_minimal_version (p : version_props) : N * N :=
  if vp_utf8 p then (3, 0) else if vp_u32 p then (2, 0) else (1, 0).

(** Little-endian value of a byte list. *)
Fixpoint le_value (bs : bytes) : N :=
  match bs with
  | [] => 0
  | b :: r => b + 256 * le_value r
  end.
(** The [n] low bytes of a value, little-endian. *)
Fixpoint le_bytes (n : nat) (v : N) : bytes :=
  match n with
  | O => []
  | S m => v mod 256 :: le_bytes m (v / 256)
  end.

Definition magic : bytes := 0x93 :: lit "NUMPY".

(** src/header.rs:261-274 *)
Definition read_magic_and_version : rprog (N * N) :=
  RRead 8 (EData (lit "magic not found for NPY file")) (fun buf =>
    if eqb_list (takeN 6 buf) magic
    then RRet (nth 6 buf 0, nth 7 buf 0)
    else RErr (EData (lit "magic not found for NPY file"))).

(** src/header.rs:249-259 *)
Definition read_pre_header : rprog (version_props * N) :=
  let! v := read_magic_and_version in
  match get_version_props v with
  | None => RErr (EData (lit "unsupported version: (" ++ dec (fst v) ++ lit ", " ++ dec (snd v) ++ lit ")"))
  | Some p =>
    let! bs := read_exact (if vp_u32 p then 4 else 2) in
    RRet (p, le_value bs)
  end.

(** src/header.rs:222-231, on a machine that can allocate the text buffer ([read_header_alloc] otherwise). *)
Definition read_header : rprog value :=
  let! ph := read_pre_header in
  let! txt := read_exact (snd ph) in
  rlift (parse_header_text txt).
(** src/header.rs:222-231 with the allocation of the text buffer in line 227, which panics beyond [isize::MAX].  A header length has at
    most 32 bits, so only machines with a 32-bit [usize] can tell this from [read_header] (C34_allocation_64). *)
Definition read_header_alloc (c : cfg) : rprog value :=
  let! ph := read_pre_header in
  let! txt := read_vec c (snd ph) in
  rlift (parse_header_text txt).
