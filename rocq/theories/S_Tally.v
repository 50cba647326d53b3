(** Writers given any number of values, also more than the 2^64 - 1 their counter can count (src/write.rs:503: [self.num_items += 1]). *)
From Verif Require Import M_Base M_Text M_TypeStr M_IO M_Header M_Read M_Serialize M_Write S_Text S_TypeStr S_Header S_Shape S_Elem S_Reject S_Fault S_Message S_Write S_DText S_File S_Outcome.
Open Scope N_scope.

(** What a writer holds to be the number of values after [n] pushes.  With checked arithmetic the push after number 2^64 - 1 panics before it
    counts or writes anything; without, the count starts over. *)
Definition tally (checked : bool) (n : N) : N := if checked then N.min n (2 ^ 64 - 1) else n mod 2 ^ 64.

(** Pushes of which the caller ignores errors and catches panics. *)
Inductive all_pushes (checked : bool) (t : rty) (d : dtype) (vs : list val) : list (res unit) -> bytes -> Prop :=
| every_push rs data : (checked = true -> lenN vs < 2 ^ 64) -> pushes t d vs rs data -> all_pushes checked t d vs rs data
| first_pushes before after rs data : checked = true -> vs = before ++ after -> lenN before = 2 ^ 64 - 1 -> after <> [] -> pushes t d before rs data ->
    all_pushes checked t d vs (rs ++ map (fun _ => Panic) after) data.

(** As [session_outcome] and [write_outcome] (S_Outcome.v), for any number of values. *)
Inductive any_session (checked : bool) (m : N) (t : rty) (d : dtype) (o : order) (h : shape_hint) (vs : list val) (e : ending)
  : res (list (res unit) * res unit) -> bytes -> Prop :=
| any_refused msg file : write_complaint m t d msg -> begun_file d o h [] file -> any_session checked m t d o h vs e (Err (EData msg)) file
| any_run rs r data file : accepts m Writing t d -> all_pushes checked t d vs rs data -> ends e h o (tally checked (lenN vs)) r ->
    left_behind d o h (tally checked (lenN vs)) data file -> any_session checked m t d o h vs e (Ok (rs, r)) file.

Inductive any_write (checked : bool) (m : N) (t : rty) (d : dtype) (o : order) (h : shape_hint) (vs : list val) : res unit -> bytes -> Prop :=
| any_write_refused msg file : write_complaint m t d msg -> begun_file d o h [] file -> any_write checked m t d o h vs (Err (EData msg)) file
| any_write_stuck before v after payload out msg file r :
    accepts m Writing t d -> vs = before ++ v :: after -> (checked = true -> lenN before + 1 < 2 ^ 64) -> encodings t d before payload -> unstorable t d v out msg ->
    left_behind d o h (tally checked (lenN before + 1)) (payload ++ out) file ->
    r = match h with TwoDimensional 0 => Panic | _ => Err (EData msg) end ->
    any_write checked m t d o h vs r file
| any_write_overflow before v after payload file :
    accepts m Writing t d -> vs = before ++ v :: after -> checked = true -> lenN before = 2 ^ 64 - 1 -> encodings t d before payload ->
    left_behind d o h (2 ^ 64 - 1) payload file -> any_write checked m t d o h vs Panic file
| any_write_all payload file r : accepts m Writing t d -> (checked = true -> lenN vs < 2 ^ 64) -> encodings t d vs payload ->
    ends Finished h o (tally checked (lenN vs)) r -> left_behind d o h (tally checked (lenN vs)) payload file -> any_write checked m t d o h vs r file.
