(** Specification of reading items from an open file, as a position in a list of items. *)
From Verif Require Import M_Base M_TypeStr M_IO M_Header M_Read M_Serialize M_NpyReader S_Elem.
Open Scope N_scope.

(** Calls on a reader and what the caller sees. *)
Inductive call := CNext | CSeek (i : N) | CReadAt (i : N) | CLen | CHint.
Inductive obs := OItem (v : val) | OEnd | ODone | OCount (n : N) | OHint (low : N) (high : option N) | OError | OPanicked.

(** What the caller should see, given the items and the current position; [m] is the largest number an iterator's size hint can
    name.  An item that is [None] cannot be decoded. *)
Definition item_obs (items : list (option val)) (i : N) : obs :=
  match nth_error items (N.to_nat i) with Some (Some v) => OItem v | Some None => OError | None => OEnd end.
Definition ideal_call (m : N) (items : list (option val)) (k : call) (pos : N) : obs * N :=
  let n := lenN items in
  match k with
  | CNext => if pos <? n then (item_obs items pos, pos + 1) else (OEnd, pos)
  | CSeek i => if i <=? n then (ODone, i) else (OPanicked, pos)
  | CReadAt i => if i <? n then (item_obs items i, i + 1) else (OPanicked, pos)
  | CLen => (OCount (n - pos), pos)
  | CHint => (if n - pos <=? m then OHint (n - pos) (Some (n - pos)) else OHint m None, pos)
  end.
Fixpoint ideal (m : N) (items : list (option val)) (ks : list call) (pos : N) : list obs :=
  match ks with
  | [] => []
  | k :: ks' => let '(o, pos') := ideal_call m items k pos in o :: ideal m items ks' pos'
  end.

(** The same calls on the model's reader.  A panic is caught and the reader used again. *)
Definition actual_call (c : cfg) (k : call) (r : npy_reader) : obs * npy_reader :=
  let seen x := match x with Ok v => OItem v | Err _ => OError | Panic => OPanicked end in
  match k with
  | CNext => match nr_next c r with (None, r') => (OEnd, r') | (Some x, r') => (seen x, r') end
  | CSeek i => match nr_seek_to c i r with (Ok _, r') => (ODone, r') | (Err _, r') => (OError, r') | (Panic, r') => (OPanicked, r') end
  | CReadAt i => let '(x, r') := nr_read_at c i r in (seen x, r')
  | CLen => match nr_len c r with Ok n => (OCount n, r) | Err _ => (OError, r) | Panic => (OPanicked, r) end
  | CHint => match nr_size_hint c r with Ok (a, b) => (OHint a b, r) | Err _ => (OError, r) | Panic => (OPanicked, r) end
  end.
Fixpoint actual (c : cfg) (ks : list call) (r : npy_reader) : list obs :=
  match ks with
  | [] => []
  | k :: ks' => let '(o, r') := actual_call c k r in o :: actual c ks' r'
  end.

(** [items] are the items of type [t] stored in the blocks of bytes [blocks]. *)
Definition stored (t : rty) (d : dtype) (blocks : list bytes) (items : list (option val)) : Prop :=
  Forall2 (fun b v => lenN b = size d /\ bytes_ok b /\ decode t d b = v) blocks items.

(** An open file whose data (from the source's current position on) is complete: one block per item of the shape. *)
Definition complete_file (t : rty) (f : npy_file) (items : list (option val)) : Prop :=
  exists blocks more, cur_rest (nf_src f) = List.concat blocks ++ more
    /\ stored t (h_dtype (nf_header f)) blocks items /\ lenN items = h_n_records (nf_header f).

(** The same observations up to the first error, which is then in the first list. *)
Fixpoint agree_until_error (a b : list obs) : Prop :=
  match a, b with
  | [], [] => True
  | OError :: _, _ :: _ => True
  | x :: a', y :: b' => x = y /\ agree_until_error a' b'
  | _, _ => False
  end.

(** Types whose items are fetched completely before they are validated, or are never invalid. *)
Definition whole_item (t : rty) (d : dtype) : Prop :=
  numeric t
  \/ match t, d with
     | (RBool | RVecU8 | RFixedBytes _ | RArrU8 _ | RArrString _), _ => True
     | RString, DPlain ts => ts_char ts = TByteStr
     | _, _ => False
     end.

(** Positions fit the machine: the end of the data is below 2^63, and so is the number of items if arithmetic is checked; and
    the strings of an item fit into memory. *)
Definition addressable (c : cfg) (f : npy_file) : Prop :=
  strings_fit (c_usize_max c) (h_dtype (nf_header f)) /\
  cur_pos (nf_src f) + h_n_records (nf_header f) * size (h_dtype (nf_header f)) < 2 ^ 63
  /\ (c_ovf_panics c = false \/ h_n_records (nf_header f) < 2 ^ 63).

(** Calling [next] on the iterator over an in-memory file [k] times: the results and the iterator afterwards. *)
Fixpoint iterate (c : cfg) (k : nat) (it : nd_iter) : list (res (option val)) * nd_iter :=
  match k with
  | O => ([], it)
  | S k' => let '(x, it') := it_next c it in let '(l, it'') := iterate c k' it' in (x :: l, it'')
  end.
(** What an in-memory reader gives for an item: the item, nothing beyond the last one, a panic for one that cannot be decoded. *)
Definition seen_item (x : option (option val)) : res (option val) :=
  match x with Some (Some v) => Ok (Some v) | Some None => Panic | None => Ok None end.
