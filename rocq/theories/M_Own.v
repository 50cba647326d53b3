(** src/read.rs and src/write.rs for element types of the caller's own: implementations of [Deserialize] and [Serialize] outside npyz, as
    Vector5 in tests/roundtrip.rs.  The code is generic; M_NpyReader.v and M_Write.v are this code for the types npyz itself provides. *)
From Verif Require Import M_Base M_Text M_TypeStr M_PyLit M_IO M_Header M_Read M_Serialize M_DTypeErr M_NpyReader M_Write.
Open Scope N_scope.

(** src/serialize/traits.rs:110-117, [TypeRead::read_one].  Given the bytes that are ahead in the source: what is returned, and how many bytes
    were taken.  It is handed an [io::Read] and nothing else, so it cannot go back.  Simplified: it keeps no state between calls. *)
Definition own_read (V : Type) : Type := bytes -> res V * N.
(** src/serialize/traits.rs:33-41, [Deserialize::reader]: [inr] is the text of the error. *)
Definition own_deserialize (V : Type) : Type := dtype -> own_read V + text.
(** A call over a source.  No more can be taken than there is. *)
Definition own_call {V} (u : own_read V) (src : cursor) : res V * cursor :=
  let '(x, k) := u (cur_rest src) in
  (x, {| cur_data := cur_data src; cur_pos := cur_pos src + N.min k (lenN (cur_rest src)) |}).

(** src/read.rs:182-187 *)
Record own_reader (V : Type) := { og_header : nheader; og_type : own_read V; og_src : cursor; og_index : N }.
Arguments og_header {V}. Arguments og_type {V}. Arguments og_src {V}. Arguments og_index {V}.

(** src/read.rs:314-320 with 290-296 *)
Definition own_data {V} (de : own_deserialize V) (f : npy_file) : own_reader V + text :=
  if h_pickled (nf_header f) then inr (dterr_display RequiresPickle)
  else match de (h_dtype (nf_header f)) with
  | inl u => inl {| og_header := nf_header f; og_type := u; og_src := nf_src f; og_index := 0 |}
  | inr msg => inr msg
  end.

(** src/read.rs:401-408 *)
Definition own_total_len {V} (r : own_reader V) : N := h_n_records (og_header r).
Definition own_len {V} (c : cfg) (r : own_reader V) : res N :=
  if og_index r <=? own_total_len r then Ok (own_total_len r - og_index r)
  else if c_ovf_panics c then Panic else Ok (own_total_len r + 2 ^ 64 - og_index r).

(** src/read.rs:559-566 *)
Definition own_next {V} (r : own_reader V) : option (res V) * own_reader V :=
  if og_index r <? own_total_len r then
    let '(v, src') := own_call (og_type r) (og_src r) in
    (Some v, {| og_header := og_header r; og_type := og_type r; og_src := src'; og_index := og_index r + 1 |})
  else (None, r).

(** src/read.rs:568-575 *)
Definition own_size_hint {V} (c : cfg) (r : own_reader V) : res (N * option N) :=
  let* n := own_len c r in
  if c_usize_max c <? n then Ok (c_usize_max c, None) else Ok (n, Some n).

(** src/read.rs:422-440 *)
Definition own_seek_to {V} (c : cfg) (index : N) (r : own_reader V) : res unit * own_reader V :=
  if own_total_len r <? index then (Panic, r)
  else match i64_op c (as_i64 index - as_i64 (og_index r)) with
  | Panic => (Panic, r)
  | Err e => (Err e, r)
  | Ok delta =>
    if (delta =? 0)%Z then (Ok tt, r)
    else match h_item_size (og_header r) with
    | None => (Err EUnsupported, r)
    | Some size =>
      match i64_op c (delta * as_i64 size) with
      | Panic => (Panic, r)
      | Err e => (Err e, r)
      | Ok d =>
        match cur_seek d (og_src r) with
        | (Ok _, src') => (Ok tt, {| og_header := og_header r; og_type := og_type r; og_src := src'; og_index := index |})
        | (Err e, src') => (Err e, {| og_header := og_header r; og_type := og_type r; og_src := src'; og_index := og_index r |})
        | (Panic, src') => (Panic, r)
        end
      end
    end
  end.

(** src/read.rs:447-453 *)
Definition own_read_at {V} (c : cfg) (index : N) (r : own_reader V) : res V * own_reader V :=
  if own_total_len r <=? index then (Panic, r)
  else match own_seek_to c index r with
  | (Ok _, r') =>
    match own_next r' with
    | (Some v, r'') => (v, r'')
    | (None, r'') => (Panic, r'')
    end
  | (Err e, r') => (Err e, r')
  | (Panic, r') => (Panic, r')
  end.

(** [Iterator::collect::<io::Result<Vec<T>>>()]; [fuel] is more than the number of calls that can return [Some]. *)
Fixpoint own_collect {V} (fuel : nat) (r : own_reader V) : res (list V) * own_reader V :=
  match fuel with
  | O => (Ok [], r)
  | S f =>
    match own_next r with
    | (None, r') => (Ok [], r')
    | (Some (Ok v), r') =>
      let '(res, r'') := own_collect f r' in
      (let* vs := res in Ok (v :: vs), r'')
    | (Some (Err e), r') => (Err e, r')
    | (Some Panic, r') => (Panic, r')
    end
  end.
(** src/read.rs:303-308.  The capacity reserved from the size hint is not modelled. *)
Definition own_into_vec {V} (de : own_deserialize V) (f : npy_file) : res (list V) * cursor :=
  match own_data de f with
  | inr msg => (Err (EData msg), nf_src f)
  | inl r => let '(v, r') := own_collect (S (N.to_nat (h_n_records (nf_header f)))) r in (v, og_src r')
  end.

(** src/serialize/traits.rs:130-138, [TypeWrite::write_one], as a program that touches its output through [write_all]; what it does next may
    depend on whether that worked.  Simplified: no [write] of a part, no [flush], no state between calls. *)
Inductive own_prog :=
| OReturn (r : res unit)
| OWrite (bs : bytes) (k : res unit -> own_prog).
Fixpoint run_own (p : own_prog) (s : sink) : res unit * sink :=
  match p with
  | OReturn r => (r, s)
  | OWrite bs k => let '(r, s') := sink_write bs s in run_own (k r) s'
  end.
Definition own_write (V : Type) : Type := V -> own_prog.
(** src/serialize/traits.rs:68-75, [Serialize::writer] *)
Definition own_serialize (V : Type) : Type := dtype -> own_write V + text.

(** src/write.rs:396-403: the fields of [NpyWriter] other than the type's writer are in [ow_file], whose [w_writer] is not looked at. *)
Record own_writer (V : Type) := { ow_file : npy_writer; ow_type : own_write V }.
Arguments ow_file {V}. Arguments ow_type {V}.
Definition unused_writer : twriter := WrFixed 0.

(** src/write.rs:476-499 *)
Definition own_begin {V} (c : cfg) (se : own_serialize V) (d : dtype) (o : order) (s : shape_hint) (seekable : bool)
  : sink -> res (own_writer V) * sink :=
  let@ start_pos := (if seekable then (let@ p := sink_tell in sret (Ok (Some p))) else sret (Ok None)) in
  let@ ip := write_header c d o s in
  match se d with
  | inr msg => sret (Err (EData msg))
  | inl u =>
    sret (Ok {| ow_file := {| w_start_pos := start_pos; w_shape_info := fst ip; w_num_items := 0; w_seekable := seekable;
                              w_writer := unused_writer; w_version_props := snd ip |};
                ow_type := u |})
  end.

(** src/write.rs:502-505 *)
Definition own_push {V} (c : cfg) (v : V) (w : own_writer V) (s : sink) : res unit * own_writer V * sink :=
  let f := ow_file w in
  match u64_add c (w_num_items f) 1 with
  | Ok n =>
    let f' := {| w_start_pos := w_start_pos f; w_shape_info := w_shape_info f; w_num_items := n;
                 w_seekable := w_seekable f; w_writer := w_writer f; w_version_props := w_version_props f |} in
    let '(r, s') := run_own (ow_type w v) s in
    (r, {| ow_file := f'; ow_type := ow_type w |}, s')
  | Err e => (Err e, w, s)
  | Panic => (Panic, w, s)
  end.

(** src/write.rs:508-510 *)
Fixpoint own_extend {V} (c : cfg) (vs : list V) (w : own_writer V) (s : sink) : res unit * own_writer V * sink :=
  match vs with
  | [] => (Ok tt, w, s)
  | v :: vs' =>
    match own_push c v w s with
    | (Ok _, w', s') => own_extend c vs' w' s'
    | (Err e, w', s') => (Err e, w', s')
    | (Panic, w', s') => (Panic, w', s')
    end
  end.

(** A complete use of the writer; finishing (src/write.rs:512-561, 631-635) does not involve the type. *)
Definition own_write_file {V} (c : cfg) (se : own_serialize V) (d : dtype) (o : order) (h : shape_hint) (seekable : bool) (vs : list V)
  : sink -> res unit * sink :=
  let@ w := own_begin c se d o h seekable in
  fun s =>
    match own_extend c vs w s with
    | (Ok _, w', s') => finish (ow_file w') s'
    | (r, w', s') =>
      match drop_writer (ow_file w') s' with
      | (Panic, s'') => (Panic, s'')
      | (_, s'') => (r, s'')
      end
    end.

(** The types npyz provides, seen this way. *)
Definition provided_read (c : cfg) (rd : treader) : own_read val :=
  fun input => let '(x, rest) := run (read_one c rd) input in (x, lenN input - lenN rest).
Definition provided_deserialize (c : cfg) (t : rty) : own_deserialize val :=
  fun d => match reader c t d with DOk rd => inl (provided_read c rd) | DErr e => inr (dterr_display e) end.
Definition provided_write (c : cfg) (tw : twriter) : own_write val :=
  fun v => let '(bs, r) := write_one c tw v in OWrite bs (fun x => OReturn (let* _u := x in r)).
Definition provided_serialize (c : cfg) (t : rty) : own_serialize val :=
  fun d => match writer c t d with DOk tw => inl (provided_write c tw) | DErr e => inr (dterr_display e) end.

(** A struct deriving the traits whose fields have such types: derive/src/lib.rs:157-163 and 169-176.  [make] builds the struct from the values of
    its fields.  Simplified: the values of all fields are in one type [V]. *)
Fixpoint own_read_fields {V} (us : list (own_read V)) (input : bytes) : res (list V) * N :=
  match us with
  | [] => (Ok [], 0)
  | u :: us' =>
    let '(x, k) := u input in
    let k := N.min k (lenN input) in
    match x with
    | Ok v => let '(y, k') := own_read_fields us' (dropN k input) in (let* vs := y in Ok (v :: vs), k + k')
    | Err e => (Err e, k)
    | Panic => (Panic, k)
    end
  end.
Fixpoint field_readers {V} (fs : list (text * own_deserialize V)) (ds : list dtype) : list (own_read V) + text :=
  match fs, ds with
  | (_, de) :: fs', d :: ds' =>
    match de d with
    | inr msg => inr msg
    | inl u => match field_readers fs' ds' with inl us => inl (u :: us) | inr msg => inr msg end
    end
  | _, _ => inl []
  end.
Definition own_map {V W} (f : V -> W) (u : own_read V) : own_read W :=
  fun input => let '(x, k) := u input in (let* v := x in Ok (f v), k).
Definition derived_deserialize {V W} (make : list V -> W) (fs : list (text * own_deserialize V)) : own_deserialize W :=
  fun d => match extract_field_dtypes (map fst fs) d with
           | DErr e => inr (dterr_display e)
           | DOk ds => match field_readers fs ds with inl us => inl (own_map make (own_read_fields us)) | inr msg => inr msg end
           end.

(** [p?; q] *)
Fixpoint own_then (p q : own_prog) : own_prog :=
  match p with
  | OReturn (Ok _) => q
  | OReturn r => OReturn r
  | OWrite bs k => OWrite bs (fun r => own_then (k r) q)
  end.
(** derive/src/lib.rs:106-112 and 118-125.  [take] gives the values of the fields of a struct. *)
Fixpoint own_write_fields {V} (us : list (own_write V)) (vs : list V) : own_prog :=
  match us, vs with
  | u :: us', v :: vs' => own_then (u v) (own_write_fields us' vs')
  | _, _ => OReturn (Ok tt)
  end.
Fixpoint field_writers {V} (fs : list (text * own_serialize V)) (ds : list dtype) : list (own_write V) + text :=
  match fs, ds with
  | (_, se) :: fs', d :: ds' =>
    match se d with
    | inr msg => inr msg
    | inl u => match field_writers fs' ds' with inl us => inl (u :: us) | inr msg => inr msg end
    end
  | _, _ => inl []
  end.
Definition derived_serialize {V W} (take : W -> list V) (fs : list (text * own_serialize V)) : own_serialize W :=
  fun d => match extract_field_dtypes (map fst fs) d with
           | DErr e => inr (dterr_display e)
           | DOk ds => match field_writers fs ds with inl us => inl (fun w => own_write_fields us (take w)) | inr msg => inr msg end
           end.

(** tests/roundtrip.rs:51-110: Vector5, five [i32]s; its values are those of a list of numbers. *)
Definition is_vector5 (d : dtype) : bool :=
  match d with
  | DArray 5 (DPlain {| ts_endianness := Little; ts_char := TInt; ts_size := 4; ts_units := None |}) => true
  | _ => false
  end.
Definition vector5_error : text := lit "Vector5 only supports '<i4' format!".
(** tests/roundtrip.rs:99-110.  [read_i32::<LittleEndian>] is [read_exact] of four bytes. *)
Definition le_i32 (b : bytes) : Z := let u := Z.of_N (le_value b) in (if u <? 2 ^ 31 then u else u - 2 ^ 32)%Z.
Fixpoint read_i32s (n : nat) : rprog (list val) :=
  match n with
  | O => RRet []
  | S m => let! b := read_exact 4 in let! zs := read_i32s m in RRet (XInt (le_i32 b) :: zs)
  end.
Definition vector5_read : own_read val :=
  fun input => let '(x, rest) := run (read_i32s 5) input in (let* l := x in Ok (XSeq l), lenN input - lenN rest).
Definition vector5_deserialize : own_deserialize val := fun d => if is_vector5 d then inl vector5_read else inr vector5_error.
(** tests/roundtrip.rs:87-97: indexing panics if there are fewer than five; more are ignored. *)
Fixpoint write_i32s (n : nat) (zs : list val) : own_prog :=
  match n with
  | O => OReturn (Ok tt)
  | S m =>
    match zs with
    | XInt z :: zs' => own_then (OWrite (le_bytes 4 (Z.to_N (z mod 2 ^ 32))) OReturn) (write_i32s m zs')
    | _ => OReturn Panic
    end
  end.
Definition vector5_write : own_write val := fun v => match v with XSeq l => write_i32s 5 l | _ => OReturn Panic end.
Definition vector5_serialize : own_serialize val := fun d => if is_vector5 d then inl vector5_write else inr vector5_error.
