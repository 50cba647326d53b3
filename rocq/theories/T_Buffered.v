(** C69: writing through a buffer. *)
From Verif Require Import M_Base M_Text M_TypeStr M_PyLit M_IO M_Header M_Read M_Serialize M_NpyReader M_Write M_Buffered.
From Verif Require Import S_Text S_TypeStr S_DType S_Shape S_Header S_Elem S_Strings S_Reader S_Write S_DText S_File
  P_Base P_Header P_Shape P_Elem P_Sink P_Session P_Crash P_File P_Buffered T_Elem T_File.
Open Scope N_scope.

(** M_Buffered.v writes the writer down again, over any kind of output; directly on a file it is the writer of M_Write.v. *)
Theorem C69_same_code : forall c t d o h k vs e s,
  session_on (@run_sink) c t d o h k vs e s = session c t d o h k vs e s /\ write_file_on (@run_sink) c t d o h k vs s = write_file c t d o h k vs s.
Proof. intros. split; [ apply session_same | apply write_file_same ]. Qed.
Print Assumptions C69_same_code.

(** However the buffer decides when to pass bytes on, whatever is written, and wherever the file stops working: when writer and buffer are
    gone the file is the one that a writer without a buffer leaves. *)
Theorem C69_same_file : forall c t d o h k vs e policy s,
  drop_buffer (snd (session_on (@run_buffered) c t d o h k vs e (fresh policy s))) = snd (session c t d o h k vs e s)
  /\ drop_buffer (snd (write_file_on (@run_buffered) c t d o h k vs (fresh policy s))) = snd (write_file c t d o h k vs s).
Proof.
  intros. rewrite <- session_same, <- write_file_same. split; apply drop_behind; [ apply session_behind | apply write_file_behind ].
Qed.
Print Assumptions C69_same_file.

(** The buffer hides no error: [finish] succeeds exactly when it does without, even if the file stopped while the buffer still took everything. *)
Theorem C69_success : forall c t d o h k vs policy s rs,
  (fst (session_on (@run_buffered) c t d o h k vs Finished (fresh policy s)) = Ok (rs, Ok tt) <-> fst (session c t d o h k vs Finished s) = Ok (rs, Ok tt))
  /\ (fst (write_file_on (@run_buffered) c t d o h k vs (fresh policy s)) = Ok tt <-> fst (write_file c t d o h k vs s) = Ok tt).
Proof. intros. rewrite <- session_same, <- write_file_same. split; [ apply session_ok | apply write_file_ok ]. Qed.
Print Assumptions C69_success.
(** On a file that keeps working every call returns the same. *)
Theorem C69_same_results : forall c t d o h k vs e policy s, sk_fuel s = None ->
  fst (session_on (@run_buffered) c t d o h k vs e (fresh policy s)) = fst (session c t d o h k vs e s).
Proof. intros c t d o h k vs e policy s F. rewrite <- session_same. now apply session_live. Qed.
Print Assumptions C69_same_results.

(** So after a success the complete file is on the disk. *)
Theorem C69_on_disk : forall c t d o h vs policy s b, wf_dtype d -> Forall (has_type t) vs -> lenN vs < 2 ^ 64 -> hint_ok h ->
  write_file_on (@run_buffered) c t d o h (output_kind h) vs (fresh policy s) = (Ok tt, b) ->
  exists shape payload file, final_shape h o (lenN vs) = Some shape /\ encodings t d vs payload /\ finished_file d o h shape payload file
  /\ placed (sk_data s) (sk_pos s) file (sk_data (drop_buffer b)).
Proof.
  intros c t d o h vs policy s b Hwf Hvs Hn Hh H. destruct (write_file c t d o h (output_kind h) vs s) as (r, s') eqn:E.
  pose proof (write_file_ok c t d o h (output_kind h) vs policy s) as K. pose proof (write_file_behind c t d o h (output_kind h) vs policy s) as B. rewrite write_file_same, E, H in K, B. cbn [fst snd] in *.
  rewrite (drop_behind _ _ B). assert (r = Ok tt) as -> by (now apply K). exact (file_exact c t d o h vs s s' Hwf Hvs Hn Hh E).
Qed.
Print Assumptions C69_on_disk.

(** Killed, the buffer lost: between two pushes, or at the end; the file is then one that a writer without a buffer leaves on an output that
    stops earlier.  (Every moment is covered: the disk changes only when the file accepts something, and [sk_fuel s] can end that anywhere.) *)
Theorem C69_killed : forall c t d o h k v1 v2 e policy s,
  (exists fuel, sk_data (b_file (snd (started_on (@run_buffered) c t d o h k v1 (fresh policy s))))
    = sk_data (snd (session c t d o h k (v1 ++ v2) e {| sk_data := sk_data s; sk_pos := sk_pos s; sk_fuel := fuel |})))
  /\ (exists fuel, sk_data (b_file (snd (session_on (@run_buffered) c t d o h k v1 e (fresh policy s))))
    = sk_data (snd (session c t d o h k v1 e {| sk_data := sk_data s; sk_pos := sk_pos s; sk_fuel := fuel |}))).
Proof.
  intros. split.
  - destruct (started_lost c t d o h k v1 v2 e policy s) as (f & H). exists f. rewrite <- session_same. exact H.
  - destruct (session_lost c t d o h k v1 e policy s) as (f & H). exists f. rewrite <- session_same. exact H.
Qed.
Print Assumptions C69_killed.
(** With C14: whoever opens a growing one-dimensional file of a killed program finds an error or the finished file. *)
Theorem C69_killed_1d : forall c c' t d o vs e D fuel policy, wf_dtype d -> strings_fit (c_usize_max c) d -> Forall (has_type t) vs ->
  Forall (fun v => exists b, encode t d v = Some b) vs -> lenN vs < 2 ^ 64 -> (exists n, num_bytes c' d = Some n) ->
  let s := {| sk_data := D; sk_pos := lenN D; sk_fuel := fuel |} in
  whole_or_error c' t d o OneDimensional vs (sk_data (b_file (snd (started_on (@run_buffered) c t d o OneDimensional true vs (fresh policy s))))) (lenN D)
  /\ whole_or_error c' t d o OneDimensional vs (sk_data (b_file (snd (session_on (@run_buffered) c t d o OneDimensional true vs e (fresh policy s))))) (lenN D).
Proof.
  intros c c' t d o vs e D fuel policy Hwf Hsf Hvs He Hn Hb s. split.
  - destruct (started_lost c t d o OneDimensional true vs [] e policy s) as (f & ->). rewrite session_same, app_nil_r.
    destruct (session c t d o OneDimensional true vs e (fueled s f)) as (r, s') eqn:E. exact (interrupted_1d c c' t d o vs e D f r s' Hwf Hsf Hvs He Hn Hb E).
  - destruct (session_lost c t d o OneDimensional true vs e policy s) as (f & ->). rewrite session_same.
    destruct (session c t d o OneDimensional true vs e (fueled s f)) as (r, s') eqn:E. exact (interrupted_1d c c' t d o vs e D f r s' Hwf Hsf Hvs He Hn Hb E).
Qed.
Print Assumptions C69_killed_1d.

(** Through a buffer of 8192 bytes the file is not touched before [finish], which leaves all of it; killed before, nothing; with room for 100 bytes, the
    header text is passed on at once.  On a disk with room for 100 bytes all pushes succeed, and [finish] reports the error. *)
Example C69_case : let d := plain Big TInt 2 in let t := RInt true W2 in let h := TwoDimensional 2 in
  let full := {| sk_data := []; sk_pos := 0; sk_fuel := Some 100 |} in
  exists b b' b'',
  write_file_on (@run_buffered) le64 t d OrderC h true C58_vals (fresh (std_policy 8192) C58_sink) = (Ok tt, b) /\ sk_data (b_file b) = C58_bytes
  /\ sk_data (b_file (snd (started_on (@run_buffered) le64 t d OrderC h true C58_vals (fresh (std_policy 8192) C58_sink)))) = []
  /\ lenN (sk_data (b_file (snd (started_on (@run_buffered) le64 t d OrderC h true C58_vals (fresh (std_policy 100) C58_sink))))) = 128
  /\ session_on (@run_buffered) le64 t d OrderC h true C58_vals Finished (fresh (std_policy 8192) full) = (Ok (repeat (Ok tt) 6, Err ESink), b')
  /\ session_on (@run_sink) le64 t d OrderC h true C58_vals Finished full = (Err ESink, b'')
  /\ lenN (sk_data b'') = 99 /\ sk_data (drop_buffer b') = sk_data b''.
Proof.
  eexists _, _, _. split; [ vm_compute; reflexivity | ]. split; [ vm_compute; reflexivity | ]. split; [ vm_compute; reflexivity | ]. split; [ vm_compute; reflexivity | ].
  split; [ vm_compute; reflexivity | ]. split; [ vm_compute; reflexivity | ]. split; vm_compute; reflexivity.
Qed.

(** The policy of std's BufWriter: it never holds more than its capacity; it passes on nothing if the new bytes still fit, what it held if they would fit an empty
    buffer only, and everything if they are as many as its capacity. *)
Theorem C69_std_buffer : forall cap n have new, have <= cap ->
  have + new - std_policy cap n have new <= cap
  /\ std_policy cap n have new = (if cap <=? new then have + new else if have + new <=? cap then 0 else have).
Proof.
  intros cap n have new H. unfold std_policy. destruct (N.ltb_spec new (cap - have)), (N.leb_spec cap new), (N.ltb_spec (cap - have) new), (N.leb_spec (have + new) cap); split; lia.
Qed.
Print Assumptions C69_std_buffer.
(** Eight bytes of room, five taken. *)
Example C69_std_buffer_case : map (std_policy 8 0 5) [2; 3; 4; 7; 8; 9] = [0; 0; 5; 5; 13; 14] /\ map (std_policy 8 0 0) [7; 8] = [0; 8].
Proof. split; vm_compute; reflexivity. Qed.
