(** What a writer returns and leaves behind when the output takes everything: for every list of values, storable or not, and every ending. *)
From Verif Require Import M_Base M_Text M_TypeStr M_IO M_Header M_Read M_Serialize M_Write S_Text S_TypeStr S_Header S_Shape S_Elem S_Reject S_Fault S_Message S_Write S_DText S_File.
Open Scope N_scope.

(** * The file, unfinished *)
(** The inside of the shape tuple before the number of items is known: twenty stars in place of it. *)
Definition stars : text := lit "********************".
Inductive begun_text : shape_hint -> order -> text -> Prop :=
| begun_fixed o shape sh : listed (lit ", ") shape sh -> begun_text (NDimensional shape) o sh
| begun_1d o : begun_text OneDimensional o (stars ++ lit ",")
| begun_rows r rs : shortest_numeral rs r -> begun_text (TwoDimensional r) OrderC (stars ++ lit ", " ++ rs)
| begun_cols r rs : shortest_numeral rs r -> begun_text (TwoDimensional r) OrderFortran (rs ++ lit ", " ++ stars).
Definition begun_file (d : dtype) (o : order) (h : shape_hint) (payload file : bytes) : Prop :=
  exists sh, begun_text h o sh /\ laid_out d o sh 0 payload file.
(** The file after [n] pushes when the writer is gone, however it went: with the final shape if there is one. *)
Definition left_behind (d : dtype) (o : order) (h : shape_hint) (n : N) (data file : bytes) : Prop :=
  match final_shape h o n with Some shape => finished_file d o h shape data file | None => begun_file d o h data file end.

(** * The pushes *)
(** Each value's encoding, or what is stored of it and said about it; nothing else depends on the values before. *)
Inductive pushes (t : rty) (d : dtype) : list val -> list (res unit) -> bytes -> Prop :=
| no_pushes : pushes t d [] [] []
| good_push v b vs rs bs : encode t d v = Some b -> pushes t d vs rs bs -> pushes t d (v :: vs) (Ok tt :: rs) (b ++ bs)
| bad_push v out msg vs rs bs : unstorable t d v out msg -> pushes t d vs rs bs -> pushes t d (v :: vs) (Err (EData msg) :: rs) (out ++ bs).

(** * The end *)
Inductive count_complaint : shape_hint -> N -> text -> Prop :=
| wrong_number shape n e a : count shape <> n -> shortest_numeral e (count shape) -> shortest_numeral a n ->
    count_complaint (NDimensional shape) n (lit "shape has " ++ e ++ lit " item(s), but " ++ a ++ lit " item(s) were written!")
| not_whole_rows r n e a : r <> 0 -> n mod r <> 0 -> shortest_numeral e r -> shortest_numeral a n ->
    count_complaint (TwoDimensional r) n (a ++ lit " item(s) is not divisible by " ++ e ++ lit "!").
(** Rows of no items: division by zero, whether the writer is finished or dropped.  Dropping says nothing about the count. *)
Inductive ends : ending -> shape_hint -> order -> N -> res unit -> Prop :=
| ends_well e h o n shape : final_shape h o n = Some shape -> ends e h o n (Ok tt)
| ends_badly h o n msg : count_complaint h n msg -> ends Finished h o n (Err (EData msg))
| ends_silently h o n msg : count_complaint h n msg -> ends Dropped h o n (Ok tt)
| ends_dividing e o n : ends e (TwoDimensional 0) o n Panic.

(** * Whole sessions *)
Inductive session_outcome (m : N) (t : rty) (d : dtype) (o : order) (h : shape_hint) (vs : list val) (e : ending)
  : res (list (res unit) * res unit) -> bytes -> Prop :=
| session_refused msg file : write_complaint m t d msg -> begun_file d o h [] file -> session_outcome m t d o h vs e (Err (EData msg)) file
| session_run rs r data file : accepts m Writing t d -> pushes t d vs rs data -> ends e h o (lenN vs) r -> left_behind d o h (lenN vs) data file ->
    session_outcome m t d o h vs e (Ok (rs, r)) file.

(** * Writing all at once: the first value that cannot be stored is the last one tried. *)
Inductive write_outcome (m : N) (t : rty) (d : dtype) (o : order) (h : shape_hint) (vs : list val) : res unit -> bytes -> Prop :=
| write_refused msg file : write_complaint m t d msg -> begun_file d o h [] file -> write_outcome m t d o h vs (Err (EData msg)) file
| write_stuck before v after payload out msg file r :
    accepts m Writing t d -> vs = before ++ v :: after -> encodings t d before payload -> unstorable t d v out msg ->
    left_behind d o h (lenN before + 1) (payload ++ out) file ->
    r = match h with TwoDimensional 0 => Panic | _ => Err (EData msg) end ->
    write_outcome m t d o h vs r file
| write_all payload file r : accepts m Writing t d -> encodings t d vs payload -> ends Finished h o (lenN vs) r ->
    left_behind d o h (lenN vs) payload file -> write_outcome m t d o h vs r file.
