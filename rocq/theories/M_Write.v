(** src/write.rs: writing files. *)
From Verif Require Import M_Base M_Text M_TypeStr M_PyLit M_IO M_Header M_Read M_Serialize M_DTypeErr.
Open Scope N_scope.

(** src/write.rs:14-20 *)
Definition filler_len : N := 20.
Definition filler : text := lit "********************".

(** src/write.rs:23-27 *)
Inductive shape_hint :=
| NDimensional (shape : list N)
| TwoDimensional (record_len : N)
| OneDimensional.

(** src/write.rs:436-445 *)
Inductive shape_info :=
| Automatic1D (offset_in_header_text : N)
| Automatic2D (offset_in_header_text record_len : N) (o : order)
| Known (expected_num_items : N).

(** src/write.rs:429-434 *)
Definition filler_space_padding (actual_len : N) : res bytes :=
  if actual_len <=? filler_len then Ok (repeatN 32 (filler_len - actual_len)) else Panic.

(** src/write.rs:405-411 *)
Definition shape_suffix_1d (variable_axis : text) : res bytes :=
  let* pad := filler_space_padding (lenN variable_axis) in
  Ok (variable_axis ++ lit ",), }" ++ pad).

(** src/write.rs:413-421 *)
Definition shape_suffix_2d (o : order) (record_len : N) (variable_axis : text) : res bytes :=
  let* pad := filler_space_padding (lenN variable_axis) in
  Ok (match o with
      | OrderC => variable_axis ++ lit ", " ++ dec record_len ++ lit "), }"
      | OrderFortran => dec record_len ++ lit ", " ++ variable_axis ++ lit "), }"
      end ++ pad).

(** src/write.rs:609-611 *)
Fixpoint shape_items (l : list N) : text :=
  match l with
  | [] => []
  | n :: l' => dec n ++ lit ", " ++ shape_items l'
  end.

(** src/write.rs:597-606: everything before the shape's contents *)
Definition dict_prefix (d : dtype) (o : order) : bytes :=
  lit "{'descr': " ++ utf8 (descr d) ++ lit ", 'fortran_order': "
  ++ match o with OrderC => lit "False" | OrderFortran => lit "True" end
  ++ lit ", 'shape': (".

(** src/write.rs:597-629 *)
Definition create_dict (c : cfg) (d : dtype) (o : order) (s : shape_hint) : res (bytes * shape_info) :=
  let pre := dict_prefix d o in
  match s with
  | NDimensional shape =>
    let* n := product c shape in
    Ok (pre ++ shape_items shape ++ lit "), }", Known n)
  | TwoDimensional record_len =>
    let* suf := shape_suffix_2d o record_len filler in
    Ok (pre ++ suf, Automatic2D (lenN pre) record_len o)
  | OneDimensional =>
    let* suf := shape_suffix_1d filler in
    Ok (pre ++ suf, Automatic1D (lenN pre))
  end.

(** src/write.rs:656 *)
Definition safe_u16_cutoff : N := 0xfffffc00.
(** src/write.rs:675 *)
Definition align_to : N := 64.

(** src/write.rs:646-683 *)
Definition determine_required_version_and_pad_header (header : bytes) : res (bytes * (N * N) * version_props) :=
  let required := {| vp_u32 := safe_u16_cutoff <=? lenN header; vp_utf8 := existsb (fun b => 128 <=? b) header |} in
  let version := get_minimal_version required in
  match get_version_props version with
  | None => Panic                                              (* .expect("generated internally so must be valid") *)
  | Some props =>
    let before := bytes_before_text props in
    let padded := header ++ repeatN 32 (align_to - 1 - (lenN header + before) mod align_to) ++ [10] in
    if (lenN padded + before) mod align_to =? 0 then Ok (padded, version, props) else Panic
  end.

(** src/write.rs:564-595 *)
Definition write_header (c : cfg) (d : dtype) (o : order) (s : shape_hint) : sink -> res (shape_info * version_props) * sink :=
  match d with
  | DArray _ _ => sret Panic
  | _ =>
    let@ di := sret (create_dict c d o s) in
    let@ hvp := sret (determine_required_version_and_pad_header (fst di)) in
    let '(txt, version, props) := hvp in
    let@ _u := sink_write [0x93] in
    let@ _u := sink_write (lit "NUMPY") in
    let@ _u := sink_write [fst version; snd version] in
    if negb ((lenN txt + bytes_before_text props) mod 16 =? 0) then sret Panic
    else
      let@ _u :=
        (if vp_u32 props then
           (if lenN txt <=? 2 ^ 32 - 1 then sink_write (le_bytes 4 (lenN txt)) else sret Panic)
         else
           (if lenN txt <=? 2 ^ 16 - 1 then sink_write (le_bytes 2 (lenN txt)) else sret Panic)) in
      let@ _u := sink_write txt in
      sret (Ok (snd di, props))
  end.

(** src/write.rs:717-788 (MaybeSeek): [seekable] distinguishes [Is] from [Isnt]; seeking [Isnt] is [unreachable!]. *)
Definition ms_tell (seekable : bool) : sink -> res N * sink :=
  if seekable then sink_tell else sret Panic.
Definition ms_seek (seekable : bool) (p : N) : sink -> res unit * sink :=
  if seekable then sink_seek p else sret Panic.

(** src/write.rs:396-403 *)
Record npy_writer := {
  w_start_pos : option N;
  w_shape_info : shape_info;
  w_num_items : N;
  w_seekable : bool;
  w_writer : twriter;
  w_version_props : version_props
}.

(** src/write.rs:476-499 *)
Definition begin_ (c : cfg) (t : rty) (d : dtype) (o : order) (s : shape_hint) (seekable : bool)
  : sink -> res npy_writer * sink :=
  let@ start_pos := (if seekable then (let@ p := sink_tell in sret (Ok (Some p))) else sret (Ok None)) in
  let@ ip := write_header c d o s in
  match writer c t d with
  | DErr e => sret (Err (EData (dterr_display e)))
  | DOk tw =>
    sret (Ok {| w_start_pos := start_pos; w_shape_info := fst ip; w_num_items := 0; w_seekable := seekable;
                w_writer := tw; w_version_props := snd ip |})
  end.

(** src/write.rs:129-141, 150-162, 174-186 *)
Definition begin_nd c t d o shape := begin_ c t d o (NDimensional shape) false.
Definition begin_1d c t d o := begin_ c t d o OneDimensional true.
Definition begin_2d c t d o record_len := begin_ c t d o (TwoDimensional record_len) true.

(** src/write.rs:195-207 *)
Definition write_header_only (c : cfg) (d : dtype) (o : order) (shape : list N) : sink -> res unit * sink :=
  let@ _ip := write_header c d o (NDimensional shape) in sret (Ok tt).

(** src/write.rs:502-505: the counter is advanced first *)
Definition push (c : cfg) (v : val) (w : npy_writer) (s : sink) : res unit * npy_writer * sink :=
  match u64_add c (w_num_items w) 1 with
  | Ok n =>
    let w' := {| w_start_pos := w_start_pos w; w_shape_info := w_shape_info w; w_num_items := n;
                 w_seekable := w_seekable w; w_writer := w_writer w; w_version_props := w_version_props w |} in
    let '(bs, r) := write_one c (w_writer w) v in
    let '(r', s') := (let@ _u := sink_write bs in sret r) s in
    (r', w', s')
  | Err e => (Err e, w, s)
  | Panic => (Panic, w, s)
  end.

(** src/write.rs:508-510: stops at the first error *)
Fixpoint extend (c : cfg) (vs : list val) (w : npy_writer) (s : sink) : res unit * npy_writer * sink :=
  match vs with
  | [] => (Ok tt, w, s)
  | v :: vs' =>
    match push c v w s with
    | (Ok _, w', s') => extend c vs' w' s'
    | (Err e, w', s') => (Err e, w', s')
    | (Panic, w', s') => (Panic, w', s')
    end
  end.

(** src/write.rs:523-529 and 539-545 *)
Definition patch (w : npy_writer) (offset : N) (txt : res bytes) : sink -> res unit * sink :=
  match w_start_pos w with
  | None => sret Panic                                          (* self.start_pos.unwrap() *)
  | Some start =>
    let shape_pos := start + bytes_before_text (w_version_props w) + offset in
    let@ end_pos := ms_tell (w_seekable w) in
    let@ _u := ms_seek (w_seekable w) shape_pos in
    let@ bs := sret txt in
    let@ _u := sink_write bs in
    ms_seek (w_seekable w) end_pos
  end.

(** src/write.rs:512-550 *)
Definition finish_ (w : npy_writer) : sink -> res unit * sink :=
  match w_shape_info w with
  | Known expected =>
    if negb (expected =? w_num_items w) then sret (Err (EData (lit "shape has " ++ dec expected ++ lit " item(s), but " ++ dec (w_num_items w) ++ lit " item(s) were written!")))
    else sink_flush
  | Automatic1D offset =>
    let@ _u := patch w offset (shape_suffix_1d (dec (w_num_items w))) in
    sink_flush
  | Automatic2D offset record_len o =>
    if record_len =? 0 then sret Panic                          (* remainder with a divisor of zero *)
    else if negb (w_num_items w mod record_len =? 0) then sret (Err (EData (dec (w_num_items w) ++ lit " item(s) is not divisible by " ++ dec record_len ++ lit "!")))
    else
      let@ _u := patch w offset (shape_suffix_2d o record_len (dec (w_num_items w / record_len))) in
      sink_flush
  end.

(** src/write.rs:631-635: errors are ignored, panics are not *)
Definition drop_writer (w : npy_writer) (s : sink) : res unit * sink :=
  match finish_ w s with
  | (Panic, s') => (Panic, s')
  | (_, s') => (Ok tt, s')
  end.

(** src/write.rs:559-561: [finish] consumes the writer, so it is dropped (and finalised again) on return. *)
Definition finish (w : npy_writer) (s : sink) : res unit * sink :=
  match finish_ w s with
  | (Panic, s') => (Panic, snd (drop_writer w s'))
  | (r, s') =>
    match drop_writer w s' with
    | (Panic, s'') => (Panic, s'')
    | (_, s'') => (r, s'')
    end
  end.

(** A complete use of the writer: begin, push every value, finish; on a failing push the writer is dropped. *)
Definition push_all_and_finish (c : cfg) (vs : list val) (w : npy_writer) (s : sink) : res unit * sink :=
  match extend c vs w s with
  | (Ok _, w', s') => finish w' s'
  | (r, w', s') =>
    match drop_writer w' s' with
    | (Panic, s'') => (Panic, s'')
    | (_, s'') => (r, s'')
    end
  end.
Definition write_file (c : cfg) (t : rty) (d : dtype) (o : order) (h : shape_hint) (seekable : bool) (vs : list val)
  : sink -> res unit * sink :=
  let@ w := begin_ c t d o h seekable in push_all_and_finish c vs w.

(** src/write.rs:701-713 with 455-473 (buffering by [BufWriter]: M_Buffered.v) *)
Definition to_file_1d (c : cfg) (t : rty) (vs : list val) : sink -> res unit * sink :=
  match default_dtype c t with
  | Some (Ok d) => write_file c t d OrderC OneDimensional true vs
  | _ => sret Panic
  end.
Definition empty_sink : sink := {| sk_data := []; sk_pos := 0; sk_fuel := None |}.

(** src/write.rs:57-87, 211-229, 293-362: a configuration is the starting order, then the options applied to it, outermost last. *)
Inductive builder (W : Type) :=
| BNew (o : order)                          (* WriteOptions *)
| BDType (b : builder W) (d : dtype)        (* WithDType *)
| BShape (b : builder W) (s : list N)       (* WithShape *)
| BWriter (b : builder W) (w : W).          (* WithWriter *)
Arguments BNew {W}. Arguments BDType {W}. Arguments BShape {W}. Arguments BWriter {W}.

(** src/write.rs:64-67, 75-78 *)
Definition write_options_new {W} : builder W := BNew OrderC.
(** src/write.rs:293-311: [order] updates the innermost value *)
Fixpoint set_order {W} (b : builder W) (o : order) : builder W :=
  match b with
  | BNew _ => BNew o
  | BDType b' d => BDType (set_order b' o) d
  | BShape b' s => BShape (set_order b' o) s
  | BWriter b' w => BWriter (set_order b' o) w
  end.
Fixpoint get_order {W} (b : builder W) : order :=
  match b with
  | BNew o => o
  | BDType b' _ => get_order b'
  | BShape b' _ => get_order b'
  | BWriter b' _ => get_order b'
  end.
(** src/write.rs:315-362: [None] is a missing trait impl, i.e. a compile-time error *)
Fixpoint get_dtype {W} (b : builder W) : option dtype :=
  match b with
  | BNew _ => None
  | BDType _ d => Some d
  | BShape b' _ => get_dtype b'
  | BWriter b' _ => get_dtype b'
  end.
Fixpoint get_shape {W} (b : builder W) : option (list N) :=
  match b with
  | BNew _ => None
  | BDType b' _ => get_shape b'
  | BShape _ s => Some s
  | BWriter b' _ => get_shape b'
  end.
Fixpoint get_writer {W} (b : builder W) : option W :=
  match b with
  | BNew _ => None
  | BDType b' _ => get_writer b'
  | BShape b' _ => get_writer b'
  | BWriter _ w => Some w
  end.
(** src/write.rs:95-117: one configuring call. *)
Inductive option_call (W : Type) := OptDType (d : dtype) | OptShape (s : list N) | OptWriter (w : W) | OptOrder (o : order).
Arguments OptDType {W}. Arguments OptShape {W}. Arguments OptWriter {W}. Arguments OptOrder {W}.
Definition configure {W} (b : builder W) (k : option_call W) : builder W :=
  match k with
  | OptDType d => BDType b d
  | OptShape s => BShape b s
  | OptWriter w => BWriter b w
  | OptOrder o => set_order b o
  end.
Definition configured {W} (ks : list (option_call W)) : builder W := fold_left configure ks write_options_new.
(** src/write.rs:129-141, 150-162, 174-186, 195-207; [None] is a compile-time error. *)
Definition build_nd (c : cfg) (t : rty) (b : builder sink) : option (res npy_writer * sink) :=
  match get_dtype b, get_shape b, get_writer b with
  | Some d, Some shape, Some s => Some (begin_nd c t d (get_order b) shape s)
  | _, _, _ => None
  end.
Definition build_1d (c : cfg) (t : rty) (b : builder sink) : option (res npy_writer * sink) :=
  match get_dtype b, get_writer b with
  | Some d, Some s => Some (begin_1d c t d (get_order b) s)
  | _, _ => None
  end.
Definition build_2d (c : cfg) (t : rty) (record_len : N) (b : builder sink) : option (res npy_writer * sink) :=
  match get_dtype b, get_writer b with
  | Some d, Some s => Some (begin_2d c t d (get_order b) record_len s)
  | _, _ => None
  end.
Definition build_header_only (c : cfg) (b : builder sink) : option (res unit * sink) :=
  match get_dtype b, get_shape b, get_writer b with
  | Some d, Some shape, Some s => Some (write_header_only c d (get_order b) shape s)
  | _, _, _ => None
  end.
