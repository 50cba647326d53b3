(** What a writer returns and leaves behind when calls on its output fail now and then. *)
From Verif Require Import M_Base M_Text M_TypeStr M_IO M_Header M_Read M_Serialize M_Write S_Text S_TypeStr S_Header S_Shape S_Elem S_Reject S_Fault S_Message S_Write S_DText S_File S_Outcome.
Open Scope N_scope.

Definition cut_short (part whole : bytes) : Prop := exists rest, whole = part ++ rest /\ rest <> [].

(** * The pushes *)
(** As on an output that works (S_Outcome.v), or stopped before the end of what would have been stored. *)
Inductive shaky_pushes (t : rty) (d : dtype) : list val -> list (res unit) -> bytes -> Prop :=
| sp_none : shaky_pushes t d [] [] []
| sp_good v b vs rs bs : encode t d v = Some b -> shaky_pushes t d vs rs bs -> shaky_pushes t d (v :: vs) (Ok tt :: rs) (b ++ bs)
| sp_bad v out msg vs rs bs : unstorable t d v out msg -> shaky_pushes t d vs rs bs -> shaky_pushes t d (v :: vs) (Err (EData msg) :: rs) (out ++ bs)
| sp_stopped v b part vs rs bs : encode t d v = Some b \/ (exists msg, unstorable t d v b msg) -> cut_short part b ->
    shaky_pushes t d vs rs bs -> shaky_pushes t d (v :: vs) (Err ESink :: rs) (part ++ bs).

(** * The end *)
(** The new header up to some place, the old one from there. *)
Definition half_patched (d : dtype) (o : order) (h : shape_hint) (shape : list N) (data file : bytes) : Prop :=
  exists k old new, begun_file d o h data old /\ finished_file d o h shape data new /\ lenN old = lenN new /\ file = takeN k new ++ dropN k old.
Inductive shaky_ends (d : dtype) (o : order) (h : shape_hint) (n : N) (data : bytes) : ending -> res unit -> bytes -> Prop :=
| se_finished e shape file : final_shape h o n = Some shape -> finished_file d o h shape data file -> shaky_ends d o h n data e (Ok tt) file
| se_failed shape file : final_shape h o n = Some shape -> half_patched d o h shape data file -> shaky_ends d o h n data Finished (Err ESink) file
| se_dropped shape file : final_shape h o n = Some shape -> half_patched d o h shape data file -> shaky_ends d o h n data Dropped (Ok tt) file
| se_miscounted msg file : count_complaint h n msg -> begun_file d o h data file -> shaky_ends d o h n data Finished (Err (EData msg)) file
| se_silently msg file : count_complaint h n msg -> begun_file d o h data file -> shaky_ends d o h n data Dropped (Ok tt) file
| se_dividing e file : h = TwoDimensional 0 -> begun_file d o h data file -> shaky_ends d o h n data e Panic file.

(** * Whole sessions *)
Inductive shaky_outcome (m : N) (t : rty) (d : dtype) (o : order) (h : shape_hint) (vs : list val) (e : ending)
  : res (list (res unit) * res unit) -> bytes -> Prop :=
| so_not_begun whole file : begun_file d o h [] whole -> cut_short file whole -> shaky_outcome m t d o h vs e (Err ESink) file
| so_refused msg file : write_complaint m t d msg -> begun_file d o h [] file -> shaky_outcome m t d o h vs e (Err (EData msg)) file
| so_run rs r data file : accepts m Writing t d -> shaky_pushes t d vs rs data -> shaky_ends d o h (lenN vs) data e r file ->
    shaky_outcome m t d o h vs e (Ok (rs, r)) file.

(** * Patches that cannot be mistaken *)
(** Stopped anywhere, the change of the header leaves the old meaning, the new one, or none (C14). *)
Definition unmistakable (o : order) (h : shape_hint) (n : N) : Prop :=
  match h, o with
  | OneDimensional, _ | TwoDimensional _, OrderFortran => True
  | TwoDimensional k, OrderC => ~ mistakable n k
  | NDimensional _, _ => False
  end.
