(** derive/src/lib.rs: the derive macros, the code they generate, and what that code does.
    Generated code is written down as data; rustc's part, finding out what each name in it stands for, is done by the functions [resolve_*].
    Only names of local variables and of fields are resolved; types, traits and paths are what the macros mean by them. *)
From Verif Require Import M_Base M_Text M_TypeStr M_IO M_Header M_Read M_Serialize.
Open Scope N_scope.

(** What a derive is put on, as [syn] gives it.  Identifiers are texts as they are printed, raw ones beginning with r#.  Of the generic
    parameters only the number is kept. *)
Notation ident := text (only parsing).
Inductive item_data := StructNamed (fields : list (ident * rty)) | StructTuple (types : list rty) | StructUnit | Enum | Union.
Record derive_input := { di_params : N; di_data : item_data }.

(** derive/src/lib.rs:275-277.  [trim_start_matches] removes the pattern as often as it is there. *)
Fixpoint unraw (s : text) : text := match s with 114 :: 35 :: s' => unraw s' | _ => s end.
(** derive/src/lib.rs:52-56 *)
Record field_data := { fd_idents : list ident; fd_names : list text; fd_types : list rty }.
(** derive/src/lib.rs:58-76.  A panic inside the macro is an error of the compilation.  The fields of a tuple struct are iterated over like
    the others; without any there is nothing to panic about. *)
Definition fields_extract (d : item_data) : res field_data :=
  match d with
  | StructNamed fs => Ok {| fd_idents := map fst fs; fd_names := map (fun f => unraw (fst f)) fs; fd_types := map snd fs |}
  | StructTuple [] | StructUnit => Ok {| fd_idents := []; fd_names := []; fd_types := [] |}
  | StructTuple (_ :: _) | Enum | Union => Panic
  end.

(** * Generated code *)
(** derive/src/lib.rs:204-240: [FieldDTypes] has [fdt_fields]; [extract] compares with [fdt_names] and fills the fields in this order. *)
Record dtypes_code := { fdt_names : list text; fdt_fields : list ident }.
(** derive/src/lib.rs:158-161: [let x = <T>::read_one;] and [let x = f(&self.readers.field, &mut r)?;] *)
Inductive read_stmt := LetFunc (x : ident) | LetCall (x f field r : ident).
(** derive/src/lib.rs:130-179.  [rc_readers]: the literal [FieldReaders { x: <T>::reader(&dtypes.y)?, .. }]; [rc_value]: the literal
    [Name { x, .. }] *)
Record read_code := { rc_dtypes : dtypes_code; rc_readers : list (ident * rty * ident); rc_body : list read_stmt; rc_value : list ident }.
(** derive/src/lib.rs:107-110: [{ let m = <T>::write_one; m(&self.writers.field, &mut w, &v.member)?; }] *)
Record write_stmt := { ws_method : ident; ws_callee : ident; ws_field : ident; ws_w : ident; ws_value : ident; ws_member : ident }.
(** derive/src/lib.rs:79-128 *)
Record write_code := { wc_dtypes : dtypes_code; wc_writers : list (ident * rty * ident); wc_body : list write_stmt }.

Definition gen_field_dtypes (fd : field_data) : dtypes_code := {| fdt_names := fd_names fd; fdt_fields := fd_idents fd |}.
Definition gen_children (fd : field_data) : list (ident * rty * ident) := map (fun it => (it, fst it)) (combine (fd_idents fd) (fd_types fd)).
Definition gen_read (fd : field_data) : read_code :=
  {| rc_dtypes := gen_field_dtypes fd; rc_readers := gen_children fd;
     rc_body := flat_map (fun x => [LetFunc (lit "func"); LetCall x (lit "func") x (lit "reader")]) (fd_idents fd);
     rc_value := fd_idents fd |}.
Definition gen_write (fd : field_data) : write_code :=
  {| wc_dtypes := gen_field_dtypes fd; wc_writers := gen_children fd;
     wc_body := map (fun x => {| ws_method := lit "method"; ws_callee := lit "method"; ws_field := x; ws_w := lit "w"; ws_value := lit "value"; ws_member := x |}) (fd_idents fd) |}.
(** derive/src/lib.rs:181-199: the fields of the default dtype *)
Definition gen_auto (fd : field_data) : list (text * rty) := combine (fd_names fd) (fd_types fd).

(** * Names *)
(** A raw identifier is the same identifier as the one without r#; the last declaration counts. *)
Definition same_ident (a b : ident) : bool := eqb_list (unraw a) (unraw b).
Fixpoint lookup {A} (x : ident) (l : list (ident * A)) : option A :=
  match l with [] => None | (y, a) :: l' => if same_ident x y then Some a else lookup x l' end.
Fixpoint position (x : ident) (l : list ident) : option nat :=
  match l with [] => None | y :: l' => if same_ident x y then Some O else option_map S (position x l') end.
Fixpoint all_some {A} (l : list (option A)) : option (list A) :=
  match l with [] => Some [] | Some a :: l' => option_map (cons a) (all_some l') | None :: _ => None end.

(** What a variable can be: the stream, a function, the value that was read as number [k], or the value to be written. *)
Inductive meaning := MStream | MFunc | MValue (k : nat) | MSelf.
(** The readers called, by the positions of their fields, and the variables at the end; [None]: an error of the compilation.  (Types are not
    compared: in generated code the function, the reader and the variable of one line are of the same field.) *)
Fixpoint resolve_reads (fields : list ident) (body : list read_stmt) (k : nat) (scope : list (ident * meaning)) : option (list nat * list (ident * meaning)) :=
  match body with
  | [] => Some ([], scope)
  | LetFunc x :: body' => resolve_reads fields body' k ((x, MFunc) :: scope)
  | LetCall x f field r :: body' =>
    match lookup f scope, lookup r scope, position field fields with
    | Some MFunc, Some MStream, Some p =>
      match resolve_reads fields body' (S k) ((x, MValue k) :: scope) with
      | Some (ps, scope') => Some (p :: ps, scope')
      | None => None
      end
    | _, _, _ => None
    end
  end.
(** derive/src/lib.rs:157: the parameter is called [reader].  Second component: which of the values read each field gets. *)
Definition resolve_read (rc : read_code) : option (list nat * list nat) :=
  match resolve_reads (map (fun x => fst (fst x)) (rc_readers rc)) (rc_body rc) O [(lit "reader", MStream)] with
  | Some (ps, scope) =>
    match all_some (map (fun x => match lookup x scope with Some (MValue k) => Some k | _ => None end) (rc_value rc)) with
    | Some ks => Some (ps, ks)
    | None => None
    end
  | None => None
  end.
(** derive/src/lib.rs:106: the parameters are called [w] and [value].  The writers called and the members given to them, by position. *)
Definition resolve_write_stmt (fields members : list ident) (s : write_stmt) : option (nat * nat) :=
  let scope := [(ws_method s, MFunc); (lit "value", MSelf); (lit "w", MStream)] in
  match lookup (ws_callee s) scope, lookup (ws_w s) scope, lookup (ws_value s) scope, position (ws_field s) fields, position (ws_member s) members with
  | Some MFunc, Some MStream, Some MSelf, Some p, Some q => Some (p, q)
  | _, _, _, _, _ => None
  end.
Definition resolve_write (members : list ident) (wc : write_code) : option (list (nat * nat)) :=
  all_some (map (resolve_write_stmt (map (fun x => fst (fst x)) (wc_writers wc)) members) (wc_body wc)).

(** The result of a derive: the macro panics, what it generates is rejected, or there is an implementation. *)
Inductive derived (A : Type) := MacroPanics | Rejected | Derived (a : A).
Arguments MacroPanics {A}. Arguments Rejected {A}. Arguments Derived {A}.
(** derive/src/lib.rs:28-37, 130-179.  With generic parameters the signature of [reader] (line 169) does not fit: it says [GeneratedReader]
    without them. *)
Definition derive_deserialize (i : derive_input) : derived read_code :=
  match fields_extract (di_data i) with
  | Ok fd => if negb (di_params i =? 0) then Rejected else match resolve_read (gen_read fd) with Some _ => Derived (gen_read fd) | None => Rejected end
  | _ => MacroPanics
  end.
(** derive/src/lib.rs:16-25, 79-128; as above (line 118). *)
Definition derive_serialize (i : derive_input) : derived write_code :=
  match fields_extract (di_data i) with
  | Ok fd => if negb (di_params i =? 0) then Rejected else match resolve_write (fd_idents fd) (gen_write fd) with Some _ => Derived (gen_write fd) | None => Rejected end
  | _ => MacroPanics
  end.
(** derive/src/lib.rs:40-49, 181-199 *)
Definition derive_auto_serialize (i : derive_input) : derived (list (text * rty)) :=
  match fields_extract (di_data i) with Ok fd => Derived (gen_auto fd) | _ => MacroPanics end.

(** * What generated code does *)
(** derive/src/lib.rs:229-235: one [next().unwrap()] for each field *)
Fixpoint fill_dtypes (idents : list ident) (fields : list (text * dtype)) : res (list (ident * dtype)) :=
  match idents with
  | [] => Ok []
  | x :: idents' =>
    match fields with
    | [] => Panic
    | (_, d) :: fields' => let* l := fill_dtypes idents' fields' in Ok ((x, d) :: l)
    end
  end.
(** derive/src/lib.rs:212-236 *)
Definition run_extract (dc : dtypes_code) (d : dtype) : res (dres (list (ident * dtype))) :=
  match d with
  | DRecord fields =>
    if negb (eqb_texts (map fst fields) (fdt_names dc)) then Ok (DErr (WrongFields (map fst fields) (fdt_names dc)))
    else let* l := fill_dtypes (fdt_fields dc) fields in Ok (DOk l)
  | ty => Ok (DErr (ExpectedRecord ty))
  end.
(** derive/src/lib.rs:171-173 and 120-122; a field that [FieldDTypes] does not have cannot be (it would not have compiled): [Panic]. *)
Fixpoint run_children {T} (make : rty -> dtype -> dres T) (children : list (ident * rty * ident)) (dts : list (ident * dtype)) : res (dres (list T)) :=
  match children with
  | [] => Ok (DOk [])
  | (_, t, y) :: children' =>
    match lookup y dts with
    | None => Panic
    | Some d =>
      match make t d with
      | DErr e => Ok (DErr e)
      | DOk r => let* rs := run_children make children' dts in Ok (let? rs' := rs in DOk (r :: rs'))
      end
    end
  end.
(** derive/src/lib.rs:169-176, 118-125: [Deserialize::reader] and [Serialize::writer], giving the readers (writers) of the fields *)
Definition run_reader (c : cfg) (rc : read_code) (d : dtype) : res (dres (list treader)) :=
  let* dts := run_extract (rc_dtypes rc) d in
  match dts with DErr e => Ok (DErr e) | DOk l => run_children (reader c) (rc_readers rc) l end.
Definition run_writer (c : cfg) (wc : write_code) (d : dtype) : res (dres (list twriter)) :=
  let* dts := run_extract (wc_dtypes wc) d in
  match dts with DErr e => Ok (DErr e) | DOk l => run_children (writer c) (wc_writers wc) l end.
Fixpoint read_calls (c : cfg) (rs : list treader) (ps : list nat) : rprog (list val) :=
  match ps with
  | [] => RRet []
  | p :: ps' =>
    match nth_error rs p with
    | None => RPanic
    | Some r => let! x := read_one c r in let! xs := read_calls c rs ps' in RRet (x :: xs)
    end
  end.
(** derive/src/lib.rs:157-163: [TypeRead::read_one] *)
Definition run_read_one (c : cfg) (rc : read_code) (rs : list treader) : rprog val :=
  match resolve_read rc with
  | None => RPanic
  | Some (ps, ks) => let! xs := read_calls c rs ps in match all_some (map (nth_error xs) ks) with Some l => RRet (XRec l) | None => RPanic end
  end.
Fixpoint write_calls (c : cfg) (ws : list twriter) (l : list val) (pqs : list (nat * nat)) : wout :=
  match pqs with
  | [] => wemit []
  | (p, q) :: pqs' =>
    match nth_error ws p, nth_error l q with
    | Some w, Some x => wseq (write_one c w x) (write_calls c ws l pqs')
    | _, _ => wbad
    end
  end.
(** derive/src/lib.rs:106-112: [TypeWrite::write_one] of a value with members [members] *)
Definition run_write_one (c : cfg) (members : list ident) (wc : write_code) (ws : list twriter) (l : list val) : wout :=
  match resolve_write members wc with None => wbad | Some pqs => write_calls c ws l pqs end.
(** derive/src/lib.rs:187-196: [AutoSerialize::default_dtype] *)
Fixpoint run_auto (c : cfg) (fs : list (text * rty)) : option (res (list (text * dtype))) :=
  match fs with
  | [] => Some (Ok [])
  | (name, t) :: fs' =>
    match default_dtype c t, run_auto c fs' with
    | Some r, Some rs => Some (let* d := r in let* ds := rs in Ok ((name, d) :: ds))
    | _, _ => None
    end
  end.
