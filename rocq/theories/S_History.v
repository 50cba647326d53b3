(** What a reader says to every sequence of calls, errors included, as a place in the bytes of its source. *)
From Verif Require Import M_Base M_TypeStr M_IO M_Header M_Read M_Serialize M_NpyReader S_Elem S_Fault S_Reader.
Open Scope N_scope.

(** What the caller sees; unlike [obs] an error is told with its text. *)
Inductive said := Got (v : val) | NoMore | Moved | Remaining (n : N) | Between (low : N) (high : option N) | Failed (e : err) | Panicked.

(** [attempt t d input s k]: reading an item from the start of [input] says [s] and uses up [k] bytes. *)
Inductive attempt (t : rty) (d : dtype) (input : bytes) : said -> N -> Prop :=
| attempt_item b rest v : input = b ++ rest -> lenN b = size d -> decode t d b = Some v -> attempt t d input (Got v) (size d)
| attempt_fault b rest msg : input = b ++ rest -> unreadable t d b msg -> attempt t d input (Failed (EData msg)) (lenN b)
| attempt_cut : lenN input < size d -> (forall b rest msg, input = b ++ rest -> ~ unreadable t d b msg) -> attempt t d input (Failed EUnexpectedEof) (lenN input).

(** The reader is at a place: the number of the next item, and the position of the next byte in the source, whose bytes are
    [data].  Moving to item [j] moves over [size d] bytes for each item between, from wherever the source is; [n] is the number of
    items and [m] the largest number a size hint can name. *)
Definition place : Type := N * N.
Inductive step (m : N) (t : rty) (d : dtype) (n : N) (data : bytes) : call -> place -> said -> place -> Prop :=
| next_item i p s k : i < n -> attempt t d (dropN p data) s k -> step m t d n data CNext (i, p) s (i + 1, p + k)
| next_end i p : n <= i -> step m t d n data CNext (i, p) NoMore (i, p)
| seek_there i p j q : j <= n -> q + i * size d = p + j * size d -> step m t d n data (CSeek j) (i, p) Moved (j, q)
| seek_before i p j : j <= n -> p + j * size d < i * size d -> step m t d n data (CSeek j) (i, p) (Failed EInvalidInput) (i, p)
| seek_beyond i p j : n < j -> step m t d n data (CSeek j) (i, p) Panicked (i, p)
| at_there i p j q s k : j < n -> q + i * size d = p + j * size d -> attempt t d (dropN q data) s k ->
    step m t d n data (CReadAt j) (i, p) s (j + 1, q + k)
| at_before i p j : j < n -> p + j * size d < i * size d -> step m t d n data (CReadAt j) (i, p) (Failed EInvalidInput) (i, p)
| at_beyond i p j : n <= j -> step m t d n data (CReadAt j) (i, p) Panicked (i, p)
| len_left i p : step m t d n data CLen (i, p) (Remaining (n - i)) (i, p)
| hint_exact i p : n - i <= m -> step m t d n data CHint (i, p) (Between (n - i) (Some (n - i))) (i, p)
| hint_large i p : m < n - i -> step m t d n data CHint (i, p) (Between m None) (i, p).
Inductive history (m : N) (t : rty) (d : dtype) (n : N) (data : bytes) : list call -> place -> list said -> place -> Prop :=
| history_done a : history m t d n data [] a [] a
| history_call k ks a s ss b e : step m t d n data k a s b -> history m t d n data ks b ss e -> history m t d n data (k :: ks) a (s :: ss) e.

(** The same calls on the model's reader.  A panic is caught and the reader used again. *)
Definition say_item (x : res val) : said := match x with Ok v => Got v | Err e => Failed e | Panic => Panicked end.
Definition perform_one (c : cfg) (k : call) (r : npy_reader) : said * npy_reader :=
  match k with
  | CNext => match nr_next c r with (None, r') => (NoMore, r') | (Some x, r') => (say_item x, r') end
  | CSeek i => match nr_seek_to c i r with (Ok _, r') => (Moved, r') | (Err e, r') => (Failed e, r') | (Panic, r') => (Panicked, r') end
  | CReadAt i => let '(x, r') := nr_read_at c i r in (say_item x, r')
  | CLen => match nr_len c r with Ok n => (Remaining n, r) | Err e => (Failed e, r) | Panic => (Panicked, r) end
  | CHint => match nr_size_hint c r with Ok (a, b) => (Between a b, r) | Err e => (Failed e, r) | Panic => (Panicked, r) end
  end.
Fixpoint perform (c : cfg) (ks : list call) (r : npy_reader) : list said * npy_reader :=
  match ks with
  | [] => ([], r)
  | k :: ks' => let '(s, r') := perform_one c k r in let '(ss, r'') := perform c ks' r' in (s :: ss, r'')
  end.

(** Forgetting the texts. *)
Definition coarse (s : said) : obs :=
  match s with
  | Got v => OItem v | NoMore => OEnd | Moved => ODone | Remaining n => OCount n | Between a b => OHint a b | Failed _ => OError | Panicked => OPanicked
  end.

(** An item could not be read. *)
Definition item_error (s : said) : Prop := (exists msg, s = Failed (EData msg)) \/ s = Failed EUnexpectedEof.
(** The blocks that are no items are found out by their last bytes. *)
Definition noticed_at_end (t : rty) (d : dtype) (blocks : list bytes) : Prop :=
  Forall (fun b => decode t d b = None -> exists msg, unreadable t d b msg) blocks.
