(** Specification of written files. *)
From Verif Require Import M_Base M_Text M_TypeStr M_PyLit M_IO M_Header M_Read M_Serialize M_NpyReader M_Write S_TypeStr S_DType S_Shape S_Elem.
Open Scope N_scope.

(** The bytes of a sequence of values, one after the other. *)
Definition encodings (t : rty) (d : dtype) (vs : list val) (payload : bytes) : Prop :=
  exists blocks, Forall2 (fun v b => encode t d v = Some b) vs blocks /\ payload = List.concat blocks.

(** [data'] is [data] with [file] stored at [pos]: everything before and after is as it was.  (A gap before [pos] is zeros.) *)
Definition placed (data : bytes) (pos : N) (file data' : bytes) : Prop :=
  data' = takeN pos data ++ repeatN 0 (pos - lenN data) ++ file ++ dropN (pos + lenN file) data.

(** The shape of a finished file in which [n] items were pushed; [None]: finishing is an error. *)
Definition final_shape (h : shape_hint) (o : order) (n : N) : option (list N) :=
  match h with
  | NDimensional shape => if count shape =? n then Some shape else None
  | OneDimensional => Some [n]
  | TwoDimensional r =>
    if (r =? 0) || negb (n mod r =? 0) then None
    else Some match o with OrderC => [n / r; r] | OrderFortran => [r; n / r] end
  end.

(** Opening a file with this header and data, on any machine where items of this dtype have a size: the header is as said and
    the data follows it. *)
Definition file_with (d : dtype) (o : order) (shape : list N) (file payload : bytes) : Prop :=
  forall c rest, (exists n, num_bytes c d = Some n) ->
  exists h, run (read_and_interpret c) (file ++ rest) = (Ok h, payload ++ rest)
  /\ h_dtype h = d /\ h_shape h = shape /\ h_order h = o /\ h_n_records h = count shape.

(** Headers short enough for every format version (the exact limits are the subject of C06). *)
Definition short_header (d : dtype) (h : shape_hint) : Prop :=
  lenN (utf8 (descr d)) + match h with NDimensional shape => 22 * lenN shape | _ => 50 end <= 65000.

(** A shape hint whose numbers are [u64]s and whose shape does not overflow. *)
Definition hint_ok (h : shape_hint) : Prop :=
  match h with
  | NDimensional shape => Forall (fun n => n < 2 ^ 64) shape /\ no_overflow shape
  | TwoDimensional r => r < 2 ^ 64
  | OneDimensional => True
  end.
(** [begin_nd] never seeks, the other two need a seekable output. *)
Definition output_kind (h : shape_hint) : bool := match h with NDimensional _ => false | _ => true end.

(** Histories: pushes whose errors the caller ignores, then [finish] or just dropping the writer. *)
Fixpoint push_each (c : cfg) (vs : list val) (w : npy_writer) (s : sink) : list (res unit) * npy_writer * sink :=
  match vs with
  | [] => ([], w, s)
  | v :: vs' =>
    let '(r, w', s') := push c v w s in
    let '(rs, w'', s'') := push_each c vs' w' s' in (r :: rs, w'', s'')
  end.
Inductive ending := Finished | Dropped.
Definition ended (e : ending) (w : npy_writer) (s : sink) : res unit * sink :=
  match e with Finished => finish w s | Dropped => drop_writer w s end.
Definition session (c : cfg) (t : rty) (d : dtype) (o : order) (h : shape_hint) (seekable : bool) (vs : list val) (e : ending)
  (s : sink) : res (list (res unit) * res unit) * sink :=
  match begin_ c t d o h seekable s with
  | (Ok w, s1) =>
    let '(rs, w', s2) := push_each c vs w s1 in
    let '(r, s3) := ended e w' s2 in (Ok (rs, r), s3)
  | (Err e, s1) => (Err e, s1)
  | (Panic, s1) => (Panic, s1)
  end.

(** Output that only ever moves forward: what is written, and what is returned, does not depend on the position or on what is
    already there.  [fuel] is how much the output accepts before failing. *)
Definition advanced (D : bytes) (P : N) (bs : bytes) (fuel : option N) : sink :=
  {| sk_data := match bs with [] => D | _ => takeN P D ++ repeatN 0 (P - lenN D) ++ bs ++ dropN (P + lenN bs) D end;
     sk_pos := P + lenN bs; sk_fuel := fuel |}.
Definition sequential {A} (p : sink -> A * sink) : Prop :=
  forall fuel, exists a bs fuel', forall D P, p {| sk_data := D; sk_pos := P; sk_fuel := fuel |} = (a, advanced D P bs fuel').

(** The last setting of each kind among the builder's calls. *)
Fixpoint last_some {A B} (f : A -> option B) (l : list A) : option B :=
  match l with
  | [] => None
  | x :: l' => match last_some f l' with Some b => Some b | None => f x end
  end.
Definition as_dtype {W} (k : option_call W) : option dtype := match k with OptDType d => Some d | _ => None end.
Definition as_shape {W} (k : option_call W) : option (list N) := match k with OptShape s => Some s | _ => None end.
Definition as_writer {W} (k : option_call W) : option W := match k with OptWriter w => Some w | _ => None end.
Definition as_order {W} (k : option_call W) : option order := match k with OptOrder o => Some o | _ => None end.
Definition the_order {W} (ks : list (option_call W)) : order := match last_some as_order ks with Some o => o | None => OrderC end.

(** Opening the stream [data] at [pos] gives a file of this dtype, shape and order, and reading it gives [vs]. *)
Definition reads_as (c : cfg) (t : rty) (data : bytes) (pos : N) (d : dtype) (o : order) (shape : list N) (vs : list val) : Prop :=
  exists f src', npy_new c {| cur_data := data; cur_pos := pos |} = (Ok f, src') /\ h_dtype (nf_header f) = d /\ h_shape (nf_header f) = shape
  /\ h_order (nf_header f) = o /\ fst (npy_into_vec c t f) = Ok vs.

(** What opening an interrupted file may show: an error, or the finished file with all its data after the header. *)
Definition whole_or_error (c : cfg) (t : rty) (d : dtype) (o : order) (h : shape_hint) (vs : list val) (data : bytes) (pos : N) : Prop :=
  match npy_new c {| cur_data := data; cur_pos := pos |} with
  | (Err _, _) => True
  | (Panic, _) => False
  | (Ok f, _) => exists shape payload, final_shape h o (lenN vs) = Some shape /\ encodings t d vs payload
                 /\ h_dtype (nf_header f) = d /\ h_shape (nf_header f) = shape /\ h_order (nf_header f) = o /\ cur_rest (nf_src f) = payload
  end.

(** When a crash in the final patch of a file of [n] items in rows of [k], in C order, can leave a different shape that still makes sense:
    the number of rows and the row length are long, but not so long that what lies between them is broken. *)
Definition numeral_length (n : N) : N := lenN (dec n).
Definition mistakable (n k : N) : Prop :=
  k <> 0 /\ n mod k = 0
  /\ (numeral_length (n / k) <= 17 /\ 18 <= numeral_length (n / k) + numeral_length k
      \/ numeral_length (n / k) = 18 /\ 2 <= numeral_length k
      \/ numeral_length (n / k) = 19).
