(** What a reader says to every sequence of calls when its source may fail at any read and any seek. *)
From Verif Require Import M_Base M_TypeStr M_IO M_Header M_Read M_Serialize M_NpyReader M_Source M_Flaky S_Elem S_Fault S_Reader S_History.
Open Scope N_scope.

(** The reader says something of its own, as in S_History.v, or passes on the source's error [e]. *)
Inductive told := Told (s : said) | SourceError (e : N).
(** The source can fail [k] bytes into the reading of an item from [input]: before the reading is over. *)
Definition midway (t : rty) (d : dtype) (input : bytes) (k : N) : Prop :=
  exists s n, attempt t d input s n /\ (k < n \/ k = n /\ s = S_History.Failed EUnexpectedEof).
(** One call.  All that can happen without errors of the source; an item half read: the next item is next, and the source is where it
    failed; a failed move: nothing happened. *)
Inductive flaky_step (m : N) (t : rty) (d : dtype) (n : N) (data : bytes) : call -> place -> told -> place -> Prop :=
| calm k a s b : step m t d n data k a s b -> flaky_step m t d n data k a (Told s) b
| next_broken i p k e : i < n -> midway t d (dropN p data) k -> flaky_step m t d n data CNext (i, p) (SourceError e) (i + 1, p + k)
| at_broken i p j q k e : j < n -> q + i * size d = p + j * size d -> midway t d (dropN q data) k ->
    flaky_step m t d n data (CReadAt j) (i, p) (SourceError e) (j + 1, q + k)
| seek_broken i p j e : j <= n -> j <> i -> flaky_step m t d n data (CSeek j) (i, p) (SourceError e) (i, p)
| at_seek_broken i p j e : j < n -> j <> i -> flaky_step m t d n data (CReadAt j) (i, p) (SourceError e) (i, p).
Inductive flaky_history (m : N) (t : rty) (d : dtype) (n : N) (data : bytes) : list call -> place -> list told -> place -> Prop :=
| flaky_done a : flaky_history m t d n data [] a [] a
| flaky_call k ks a s ss b e : flaky_step m t d n data k a s b -> flaky_history m t d n data ks b ss e -> flaky_history m t d n data (k :: ks) a (s :: ss) e.

(** The same calls on the model's reader.  A panic is caught and the reader used again. *)
Definition tell_item (x : outcome val) : told := match x with Done y => Told (say_item y) | M_Source.Failed e => SourceError e end.
Definition flaky_one (c : cfg) (k : call) (r : flaky_reader) : told * flaky_reader :=
  let plain := {| nr_header := fr_header r; nr_type := fr_type r; nr_src := fr_src r; nr_index := fr_index r |} in
  match k with
  | CNext => match fr_next c r with (None, r') => (Told NoMore, r') | (Some x, r') => (tell_item x, r') end
  | CSeek i => match fr_seek_to c i r with
    | (Done (Ok _), r') => (Told Moved, r') | (Done (Err e), r') => (Told (S_History.Failed e), r') | (Done Panic, r') => (Told Panicked, r')
    | (M_Source.Failed e, r') => (SourceError e, r') end
  | CReadAt i => let '(x, r') := fr_read_at c i r in (tell_item x, r')
  | CLen | CHint => (Told (fst (perform_one c k plain)), r)
  end.
Fixpoint flaky_perform (c : cfg) (ks : list call) (r : flaky_reader) : list told * flaky_reader :=
  match ks with
  | [] => ([], r)
  | k :: ks' => let '(s, r') := flaky_one c k r in let '(ss, r'') := flaky_perform c ks' r' in (s :: ss, r'')
  end.
(** The reader [r] over a source that fails as planned. *)
Definition with_plans (reads : list hiccup) (seeks : list (option N)) (r : npy_reader) : flaky_reader :=
  {| fr_header := nr_header r; fr_type := nr_type r; fr_src := nr_src r; fr_reads := reads; fr_seeks := seeks; fr_index := nr_index r |}.
(** The calls that were not answered with an error of the source, and the answers. *)
Fixpoint answered (ks : list call) (ss : list told) : list call * list said :=
  match ks, ss with
  | k :: ks', Told s :: ss' => let '(a, b) := answered ks' ss' in (k :: a, s :: b)
  | _ :: ks', SourceError _ :: ss' => answered ks' ss'
  | _, _ => ([], [])
  end.
(** No read fails. *)
Definition steady (reads : list hiccup) : Prop := Forall (fun h => match h with Fail _ => False | _ => True end) reads.
