(** src/read.rs: NpyFile, NpyReader, NpyData. *)
From Verif Require Import M_Base M_Text M_TypeStr M_PyLit M_IO M_Header M_Read M_Serialize M_DTypeErr.
Open Scope N_scope.

(** src/read.rs:123-126 over a seekable source; a [&[u8]] or a plain [io::Read] is the same without seeking. *)
Record npy_file := { nf_header : nheader; nf_src : cursor }.

(** src/read.rs:219-222 *)
Definition npy_new (c : cfg) (src : cursor) : res npy_file * cursor :=
  match run_cursor (read_and_interpret c) src with
  | (Ok h, src') => (Ok {| nf_header := h; nf_src := src' |}, src')
  | (Err e, src') => (Err e, src')
  | (Panic, src') => (Panic, src')
  end.

(** src/read.rs:172-174 *)
Definition npy_header_from_reader (c : cfg) (src : cursor) : res nheader * cursor := run_cursor (read_and_interpret c) src.
(** src/read.rs:225-227 *)
Definition npy_with_header (h : nheader) (data_reader : cursor) : npy_file := {| nf_header := h; nf_src := data_reader |}.
(** src/read.rs:235-237 *)
Definition npy_into_inner (f : npy_file) : cursor := nf_src f.

(** src/read.rs:182-187 *)
Record npy_reader := { nr_header : nheader; nr_type : treader; nr_src : cursor; nr_index : N }.

(** src/read.rs:314-320 with 290-296 *)
Definition npy_data (c : cfg) (t : rty) (f : npy_file) : dres npy_reader :=
  if h_pickled (nf_header f) then DErr RequiresPickle
  else let? r := reader c t (h_dtype (nf_header f)) in
       DOk {| nr_header := nf_header f; nr_type := r; nr_src := nf_src f; nr_index := 0 |}.

(** src/read.rs:325-336: [inr] gives the file back *)
Definition npy_try_data (c : cfg) (t : rty) (f : npy_file) : npy_reader + npy_file :=
  if h_pickled (nf_header f) then inr f
  else match reader c t (h_dtype (nf_header f)) with
       | DOk r => inl {| nr_header := nf_header f; nr_type := r; nr_src := nf_src f; nr_index := 0 |}
       | DErr _ => inr f
       end.

(** src/read.rs:401-408.  The subtraction in [len] cannot underflow: the index never exceeds the total (P_Reader.v). *)
Definition nr_total_len (r : npy_reader) : N := h_n_records (nr_header r).
Definition nr_len (c : cfg) (r : npy_reader) : res N :=
  if nr_index r <=? nr_total_len r then Ok (nr_total_len r - nr_index r)
  else if c_ovf_panics c then Panic else Ok (nr_total_len r + 2 ^ 64 - nr_index r).

(** src/read.rs:559-566: the index is advanced before the item is read *)
Definition nr_next (c : cfg) (r : npy_reader) : option (res val) * npy_reader :=
  if nr_index r <? nr_total_len r then
    let '(v, src') := run_cursor (read_one c (nr_type r)) (nr_src r) in
    (Some v, {| nr_header := nr_header r; nr_type := nr_type r; nr_src := src'; nr_index := nr_index r + 1 |})
  else (None, r).

(** src/read.rs:568-575 *)
Definition nr_size_hint (c : cfg) (r : npy_reader) : res (N * option N) :=
  let* n := nr_len c r in
  if c_usize_max c <? n then Ok (c_usize_max c, None) else Ok (n, Some n).

(** [x as i64] and plain [i64] arithmetic. *)
Definition as_i64 (n : N) : Z := if n <? 2 ^ 63 then Z.of_N n else (Z.of_N n - 2 ^ 64)%Z.
Definition wrap_i64 (z : Z) : Z := ((z + 2 ^ 63) mod 2 ^ 64 - 2 ^ 63)%Z.
Definition i64_op (c : cfg) (z : Z) : res Z :=
  if ((- 2 ^ 63 <=? z) && (z <? 2 ^ 63))%Z then Ok z
  else if c_ovf_panics c then Panic else Ok (wrap_i64 z).

(** src/read.rs:422-440 *)
Definition nr_seek_to (c : cfg) (index : N) (r : npy_reader) : res unit * npy_reader :=
  if nr_total_len r <? index then (Panic, r)
  else match i64_op c (as_i64 index - as_i64 (nr_index r)) with
  | Panic => (Panic, r)
  | Err e => (Err e, r)
  | Ok delta =>
    if (delta =? 0)%Z then (Ok tt, r)
    else match h_item_size (nr_header r) with
    | None => (Err EUnsupported, r)
    | Some size =>
      match i64_op c (delta * as_i64 size) with
      | Panic => (Panic, r)
      | Err e => (Err e, r)
      | Ok d =>
        match cur_seek d (nr_src r) with
        | (Ok _, src') =>
          (Ok tt, {| nr_header := nr_header r; nr_type := nr_type r; nr_src := src'; nr_index := index |})
        | (Err e, src') => (Err e, {| nr_header := nr_header r; nr_type := nr_type r; nr_src := src'; nr_index := nr_index r |})
        | (Panic, src') => (Panic, r)
        end
      end
    end
  end.

(** src/read.rs:447-453 *)
Definition nr_read_at (c : cfg) (index : N) (r : npy_reader) : res val * npy_reader :=
  if nr_total_len r <=? index then (Panic, r)
  else match nr_seek_to c index r with
  | (Ok _, r') =>
    match nr_next c r' with
    | (Some v, r'') => (v, r'')
    | (None, r'') => (Panic, r'')
    end
  | (Err e, r') => (Err e, r')
  | (Panic, r') => (Panic, r')
  end.

(** [Iterator::collect::<io::Result<Vec<T>>>()]: call [next] until it is [None] or an error.  [fuel] is the number of calls
    that can return [Some]. *)
Fixpoint nr_collect (c : cfg) (fuel : nat) (r : npy_reader) : res (list val) * npy_reader :=
  match fuel with
  | O => (Ok [], r)
  | S f =>
    match nr_next c r with
    | (None, r') => (Ok [], r')
    | (Some (Ok v), r') =>
      let '(res, r'') := nr_collect c f r' in
      (let* vs := res in Ok (v :: vs), r'')
    | (Some (Err e), r') => (Err e, r')
    | (Some Panic, r') => (Panic, r')
    end
  end.

(** src/read.rs:303-308.  The capacity reserved from the size hint is not modelled. *)
Definition npy_into_vec (c : cfg) (t : rty) (f : npy_file) : res (list val) * cursor :=
  match npy_data c t f with
  | DErr e => (Err (EData (dterr_display e)), nf_src f)
  | DOk r =>
    let '(v, r') := nr_collect c (S (N.to_nat (h_n_records (nf_header f)))) r in (v, nr_src r')
  end.

(** NpyFile::new followed by into_vec on any [io::Read], as a read program. *)
Definition into_vec_prog (c : cfg) (t : rty) : rprog (nheader * list val) :=
  let! h := read_and_interpret c in
  if h_pickled h then RErr (EData (dterr_display RequiresPickle))
  else match reader c t (h_dtype h) with
  | DErr e => RErr (EData (dterr_display e))
  | DOk r => let! vs := rreplicate (N.to_nat (h_n_records h)) (read_one c r) in RRet (h, vs)
  end.

(** src/read.rs:198-200, [NpyData]: the data slice after the header. *)
Record npy_data_legacy := { nd_header : nheader; nd_type : treader; nd_slice : bytes }.

(** src/read.rs:463-477 *)
Definition nd_from_bytes (c : cfg) (t : rty) (bs : bytes) : res npy_data_legacy :=
  match npy_new c {| cur_data := bs; cur_pos := 0 |} with
  | (Err e, _) => Err e
  | (Panic, _) => Panic
  | (Ok f, _) =>
    match npy_data c t f with
    | DErr e => Err (EData (dterr_display e))
    | DOk r =>
      let slice := cur_rest (nr_src r) in
      let d := {| nd_header := nr_header r; nd_type := nr_type r; nd_slice := slice |} in
      match h_item_size (nr_header r) with
      | None => Ok d
      | Some size =>
        let* total := u64_mul c size (h_n_records (nr_header r)) in
        if total =? lenN slice then Ok d else Panic
      end
    end
  end.

(** src/read.rs:485-489 ([as usize] truncates) *)
Definition nd_len (c : cfg) (d : npy_data_legacy) : N := h_n_records (nd_header d) mod (c_usize_max c + 1).

(** [Result::unwrap] *)
Definition unwrap {A} (r : res A) : res A := match r with Ok a => Ok a | _ => Panic end.

(** Plain [usize] multiplication. *)
Definition usize_mul (c : cfg) (a b : N) : res N :=
  if a * b <=? c_usize_max c then Ok (a * b)
  else if c_ovf_panics c then Panic else Ok ((a * b) mod (c_usize_max c + 1)).

(** src/read.rs:519-523 *)
Definition nd_get_unchecked (c : cfg) (i : N) (d : npy_data_legacy) : res val :=
  match h_item_size (nd_header d) with
  | None => Panic
  | Some size =>
    let* off := usize_mul c i size in
    if lenN (nd_slice d) <? off then Panic
    else unwrap (fst (run (read_one c (nd_type d)) (dropN off (nd_slice d))))
  end.

(** src/read.rs:503-509 *)
Definition nd_get (c : cfg) (i : N) (d : npy_data_legacy) : res (option val) :=
  if i <? nd_len c d then let* v := nd_get_unchecked c i d in Ok (Some v) else Ok None.

(** src/read.rs:531-534 *)
Definition nd_to_vec (c : cfg) (d : npy_data_legacy) : res (list val) :=
  unwrap (fst (run (rreplicate (N.to_nat (nd_len c d)) (read_one c (nd_type d))) (nd_slice d))).

(** src/read.rs:582-617: the legacy iterator.  When the counter wraps, [self.i - 1] wraps back. *)
Record nd_iter := { it_data : npy_data_legacy; it_i : N }.
Definition nd_into_iter (d : npy_data_legacy) : nd_iter := {| it_data := d; it_i := 0 |}.
Definition it_next (c : cfg) (it : nd_iter) : res (option val) * nd_iter :=
  if (c_usize_max c <=? it_i it) && c_ovf_panics c then (Panic, it)
  else (nd_get c (it_i it) (it_data it), {| it_data := it_data it; it_i := (it_i it + 1) mod (c_usize_max c + 1) |}).
Definition it_size_hint (c : cfg) (it : nd_iter) : res N :=
  let n := nd_len c (it_data it) in
  if it_i it <=? n then Ok (n - it_i it)
  else if c_ovf_panics c then Panic else Ok (n + c_usize_max c + 1 - it_i it).
