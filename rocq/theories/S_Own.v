(** Element types of the caller's own: what is asked of them, and what files of them are then. *)
From Verif Require Import M_Base M_TypeStr M_IO M_Header M_Read M_Serialize M_NpyReader M_Write M_Own S_DType S_Elem S_Reader S_History.
Open Scope N_scope.

(** Whatever follows, the reader says [x] to the bytes [b], having taken these and no more. *)
Definition answers {V} (u : own_read V) (b : bytes) (x : res V) : Prop := forall more, u (b ++ more) = (x, lenN b).
(** While the output accepts everything, the program writes [b] and returns [r]. *)
Inductive emits : own_prog -> bytes -> res unit -> Prop :=
| emits_return r : emits (OReturn r) [] r
| emits_write bs k b r : emits (k (Ok tt)) b r -> emits (OWrite bs k) (bs ++ b) r.

(** What the caller of a reader sees. *)
Inductive own_said (V : Type) := OGot (x : res V) | ONoMore | OMoved | ORemaining (n : N) | OBetween (low : N) (high : option N) | OFailed (e : err) | OPanic.
Arguments OGot {V}. Arguments ONoMore {V}. Arguments OMoved {V}. Arguments ORemaining {V}. Arguments OBetween {V}. Arguments OFailed {V}. Arguments OPanic {V}.

(** Calls on a reader that is a position in a list of items, of which some may be errors. *)
Definition listed_call {V} (m : N) (items : list (res V)) (k : call) (pos : N) : own_said V * N :=
  let n := lenN items in
  let item i := match nth_error items (N.to_nat i) with Some x => OGot x | None => ONoMore end in
  match k with
  | CNext => if pos <? n then (item pos, pos + 1) else (ONoMore, pos)
  | CSeek i => if i <=? n then (OMoved, i) else (OPanic, pos)
  | CReadAt i => if i <? n then (item i, i + 1) else (OGot Panic, pos)
  | CLen => (ORemaining (n - pos), pos)
  | CHint => (if n - pos <=? m then OBetween (n - pos) (Some (n - pos)) else OBetween m None, pos)
  end.
Fixpoint listed {V} (m : N) (items : list (res V)) (ks : list call) (pos : N) : list (own_said V) :=
  match ks with
  | [] => []
  | k :: ks' => let '(o, pos') := listed_call m items k pos in o :: listed m items ks' pos'
  end.

(** The same calls on the model's reader.  A panic is caught and the reader used again.  [read_at] returns its
    own errors like those of the type's reader. *)
Definition own_perform_one {V} (c : cfg) (k : call) (r : own_reader V) : own_said V * own_reader V :=
  match k with
  | CNext => match own_next r with (None, r') => (ONoMore, r') | (Some x, r') => (OGot x, r') end
  | CSeek i => match own_seek_to c i r with (Ok _, r') => (OMoved, r') | (Err e, r') => (OFailed e, r') | (Panic, r') => (OPanic, r') end
  | CReadAt i => let '(x, r') := own_read_at c i r in (OGot x, r')
  | CLen => match own_len c r with Ok n => (ORemaining n, r) | Err e => (OFailed e, r) | Panic => (OPanic, r) end
  | CHint => match own_size_hint c r with Ok (a, b) => (OBetween a b, r) | Err e => (OFailed e, r) | Panic => (OPanic, r) end
  end.
Fixpoint own_perform {V} (c : cfg) (ks : list call) (r : own_reader V) : list (own_said V) * own_reader V :=
  match ks with
  | [] => ([], r)
  | k :: ks' => let '(s, r') := own_perform_one c k r in let '(ss, r'') := own_perform c ks' r' in (s :: ss, r'')
  end.

(** The data of an open file, from where the source is, is one block of the dtype's size for each item of the shape, and the type's reader says
    [items] to these blocks. *)
Definition own_complete {V} (u : own_read V) (f : npy_file) (items : list (res V)) : Prop :=
  exists blocks more, cur_rest (nf_src f) = List.concat blocks ++ more
    /\ Forall2 (fun b x => lenN b = size (h_dtype (nf_header f)) /\ answers u b x) blocks items
    /\ lenN items = h_n_records (nf_header f).
(** Positions fit the machine. *)
Definition own_addressable (c : cfg) (f : npy_file) : Prop :=
  cur_pos (nf_src f) + h_n_records (nf_header f) * size (h_dtype (nf_header f)) < 2 ^ 63
  /\ (c_ovf_panics c = false \/ h_n_records (nf_header f) < 2 ^ 63).

(** Iterating with any reader: each call goes on where the last one stopped. *)
Fixpoint in_turn {V} (u : own_read V) (n : nat) (input : bytes) : list (res V) :=
  match n with
  | O => []
  | S m => let '(x, k) := u input in x :: in_turn u m (dropN k input)
  end.
(** The results up to the first that is not a value. *)
Fixpoint all_or_error {V} (l : list (res V)) : res (list V) :=
  match l with
  | [] => Ok []
  | Ok v :: l' => match all_or_error l' with Ok vs => Ok (v :: vs) | Err e => Err e | Panic => Panic end
  | Err e :: _ => Err e
  | Panic :: _ => Panic
  end.

(** One field of a struct: its name, its type's [Deserialize] and [Serialize], its dtype in the record, what these two make of that dtype,
    a value, and the bytes of this value. *)
Record part (V : Type) := {
  p_name : text; p_de : own_deserialize V; p_se : own_serialize V; p_dtype : dtype;
  p_reader : own_read V; p_writer : own_write V; p_value : V; p_block : bytes }.
Arguments p_name {V}. Arguments p_de {V}. Arguments p_se {V}. Arguments p_dtype {V}. Arguments p_reader {V}. Arguments p_writer {V}. Arguments p_value {V}. Arguments p_block {V}.
Definition record_of {V} (ps : list (part V)) : dtype := DRecord (map (fun p => (p_name p, p_dtype p)) ps).
Definition readable_part {V} (p : part V) : Prop := p_de p (p_dtype p) = inl (p_reader p) /\ answers (p_reader p) (p_block p) (Ok (p_value p)).
Definition writable_part {V} (p : part V) : Prop := p_se p (p_dtype p) = inl (p_writer p) /\ emits (p_writer p (p_value p)) (p_block p) (Ok tt).

(** What is seen of npyz's own types (S_History.v), from what is seen here. *)
Definition tell (s : own_said val) : said :=
  match s with
  | OGot (Ok v) => Got v | OGot (Err e) => Failed e | OGot Panic => Panicked
  | ONoMore => NoMore | OMoved => Moved | ORemaining n => Remaining n | OBetween a b => Between a b | OFailed e => Failed e | OPanic => Panicked
  end.
(** The four bytes of an [i32], lowest first (two's complement). *)
Definition i32_bytes (z : Z) : bytes := map (fun k => Z.to_N (z / 256 ^ Z.of_N k mod 256)) [0; 1; 2; 3].
(** Five little-endian [i32] in a subarray. *)
Definition vector5_dtype : dtype := DArray 5 (DPlain {| ts_endianness := Little; ts_char := TInt; ts_size := 4; ts_units := None |}).
