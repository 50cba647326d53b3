(** What a writer returns and leaves behind when it writes through a BufWriter to an output whose calls fail now and then. *)
From Verif Require Import M_Base M_Text M_TypeStr M_IO M_Header M_Read M_Serialize M_Write S_Text S_TypeStr S_Header S_Shape S_Elem S_Reject S_Fault S_Message S_Write S_DText S_File S_Outcome S_Shaky.
Open Scope N_scope.

Definition part_of (part whole : bytes) : Prop := exists rest, whole = part ++ rest.
(** The unfinished file, perhaps without its end; or, but only with all the data, the file with part of the new header. *)
Definition unfinished (d : dtype) (o : order) (h : shape_hint) (data file : bytes) : Prop := exists whole, begun_file d o h data whole /\ part_of file whole.
Inductive spilled_ends (d : dtype) (o : order) (h : shape_hint) (n : N) (data : bytes) : ending -> res unit -> bytes -> Prop :=
| sl_finished shape file : final_shape h o n = Some shape -> finished_file d o h shape data file -> spilled_ends d o h n data Finished (Ok tt) file
| sl_failed shape file : final_shape h o n = Some shape -> unfinished d o h data file \/ half_patched d o h shape data file -> spilled_ends d o h n data Finished (Err ESink) file
| sl_dropped shape file : final_shape h o n = Some shape -> unfinished d o h data file \/ half_patched d o h shape data file -> spilled_ends d o h n data Dropped (Ok tt) file
| sl_miscounted msg file : count_complaint h n msg -> unfinished d o h data file -> spilled_ends d o h n data Finished (Err (EData msg)) file
| sl_silently msg file : count_complaint h n msg -> unfinished d o h data file -> spilled_ends d o h n data Dropped (Ok tt) file
| sl_dividing e file : h = TwoDimensional 0 -> unfinished d o h data file -> spilled_ends d o h n data e Panic file.

Inductive spilled_outcome (m : N) (t : rty) (d : dtype) (o : order) (h : shape_hint) (vs : list val) (e : ending)
  : res (list (res unit) * res unit) -> bytes -> Prop :=
| so_never_begun whole file : begun_file d o h [] whole -> cut_short file whole -> spilled_outcome m t d o h vs e (Err ESink) file
| so_unwanted msg file : write_complaint m t d msg -> unfinished d o h [] file -> spilled_outcome m t d o h vs e (Err (EData msg)) file
| so_through rs r data file : accepts m Writing t d -> shaky_pushes t d vs rs data -> spilled_ends d o h (lenN vs) data e r file ->
    spilled_outcome m t d o h vs e (Ok (rs, r)) file.

(** The values whose pushes returned [Ok]. *)
Fixpoint stored (vs : list val) (rs : list (res unit)) : list val :=
  match vs, rs with
  | v :: vs', Ok _ :: rs' => v :: stored vs' rs'
  | _ :: vs', _ :: rs' => stored vs' rs'
  | _, _ => []
  end.
