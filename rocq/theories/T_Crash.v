(** C14: interrupted growing files. *)
From Verif Require Import M_Base M_Text M_TypeStr M_PyLit M_IO M_Header M_Read M_Serialize M_NpyReader M_Write.
From Verif Require Import S_TypeStr S_DType S_Shape S_Header S_Elem S_Strings S_Reader S_Write
  P_Base P_Text P_Header P_Sink P_Shape P_WriteHeader P_Writer P_WriteFile P_Session P_Crash P_Mistaken P_Elem P_Codec T_Elem T_Write.
Open Scope N_scope.

(** A growing file is appended to an output that holds [D] and accepts [fuel] more bytes, position queries, seeks and flushes; from then on it
    ignores everything, so this is a crash at an arbitrary point (or none: [fuel = None]).  Whatever machine [c'] opens the result:
    an error, or exactly the finished file. *)

(** * One dimension *)
Theorem C14_1d : forall c c' t d o vs e D fuel r s', wf_dtype d -> strings_fit (c_usize_max c) d -> Forall (has_type t) vs ->
  Forall (fun v => exists b, encode t d v = Some b) vs -> lenN vs < 2 ^ 64 -> (exists n, num_bytes c' d = Some n) ->
  session c t d o OneDimensional true vs e {| sk_data := D; sk_pos := lenN D; sk_fuel := fuel |} = (r, s') ->
  whole_or_error c' t d o OneDimensional vs (sk_data s') (lenN D).
Proof. exact interrupted_1d. Qed.
Print Assumptions C14_1d.

(** * Two dimensions, Fortran order *)
Theorem C14_2d_fortran : forall c c' t d k vs e D fuel r s', wf_dtype d -> strings_fit (c_usize_max c) d -> Forall (has_type t) vs ->
  Forall (fun v => exists b, encode t d v = Some b) vs -> lenN vs < 2 ^ 64 -> k < 2 ^ 64 -> (exists n, num_bytes c' d = Some n) ->
  session c t d OrderFortran (TwoDimensional k) true vs e {| sk_data := D; sk_pos := lenN D; sk_fuel := fuel |} = (r, s') ->
  whole_or_error c' t d OrderFortran (TwoDimensional k) vs (sk_data s') (lenN D).
Proof. exact interrupted_2d_fortran. Qed.
Print Assumptions C14_2d_fortran.

(** * Two dimensions, C order *)
(** Whenever the numbers of rows and columns have at most 17 decimal digits together ... *)
Theorem C14_2d_c_digits_partial : forall c c' t d k vs e D fuel r s', wf_dtype d -> strings_fit (c_usize_max c) d -> Forall (has_type t) vs ->
  Forall (fun v => exists b, encode t d v = Some b) vs -> lenN vs < 2 ^ 64 -> k < 2 ^ 64 -> (exists n, num_bytes c' d = Some n) ->
  lenN (dec (lenN vs / k)) + lenN (dec k) <= 17 ->
  session c t d OrderC (TwoDimensional k) true vs e {| sk_data := D; sk_pos := lenN D; sk_fuel := fuel |} = (r, s') ->
  whole_or_error c' t d OrderC (TwoDimensional k) vs (sk_data s') (lenN D).
Proof. exact interrupted_2d_c. Qed.
Print Assumptions C14_2d_c_digits_partial.
(** ... which holds for all but enormous arrays.  Missing, because false: more than 17 digits. *)
Theorem C14_2d_c_partial : forall c c' t d k vs e D fuel r s', wf_dtype d -> strings_fit (c_usize_max c) d -> Forall (has_type t) vs ->
  Forall (fun v => exists b, encode t d v = Some b) vs -> lenN vs < 10 ^ 16 -> k < 10 ^ 16 -> (exists n, num_bytes c' d = Some n) ->
  session c t d OrderC (TwoDimensional k) true vs e {| sk_data := D; sk_pos := lenN D; sk_fuel := fuel |} = (r, s') ->
  whole_or_error c' t d OrderC (TwoDimensional k) vs (sk_data s') (lenN D).
Proof. exact interrupted_2d_c_small. Qed.
Print Assumptions C14_2d_c_partial.

(** Exactly which files: those whose interrupted patch cannot be taken for another shape ... *)
Theorem C14_2d_c_safe_partial : forall c c' t d k vs e D fuel r s', wf_dtype d -> strings_fit (c_usize_max c) d -> Forall (has_type t) vs ->
  Forall (fun v => exists b, encode t d v = Some b) vs -> lenN vs < 2 ^ 64 -> k < 2 ^ 64 -> (exists n, num_bytes c' d = Some n) ->
  ~ mistakable (lenN vs) k ->
  session c t d OrderC (TwoDimensional k) true vs e {| sk_data := D; sk_pos := lenN D; sk_fuel := fuel |} = (r, s') ->
  whole_or_error c' t d OrderC (TwoDimensional k) vs (sk_data s') (lenN D).
Proof. exact interrupted_2d_c_safe. Qed.
Print Assumptions C14_2d_c_safe_partial.
(** ... and for every other file there is a crash after which it opens with a wrong shape (or the reader panics), whether [finish] was called or not. *)
Theorem C14_2d_c_mistaken : forall c c' t d k vs e D tw, wf_dtype d -> top_level d -> strings_fit (c_usize_max c) d -> Forall (has_type t) vs ->
  Forall (fun v => exists b, encode t d v = Some b) vs -> lenN vs < 2 ^ 64 -> k < 2 ^ 64 -> (exists n, num_bytes c' d = Some n) ->
  writer c t d = DOk tw -> short_header d (TwoDimensional k) -> mistakable (lenN vs) k ->
  exists fuel r s', session c t d OrderC (TwoDimensional k) true vs e {| sk_data := D; sk_pos := lenN D; sk_fuel := fuel |} = (r, s')
  /\ ~ whole_or_error c' t d OrderC (TwoDimensional k) vs (sk_data s') (lenN D).
Proof. exact interrupted_mistaken. Qed.
Print Assumptions C14_2d_c_mistaken.
Theorem C14_2d_c_exact : forall c c' t d k vs e D tw, wf_dtype d -> top_level d -> strings_fit (c_usize_max c) d -> Forall (has_type t) vs ->
  Forall (fun v => exists b, encode t d v = Some b) vs -> lenN vs < 2 ^ 64 -> k < 2 ^ 64 -> (exists n, num_bytes c' d = Some n) ->
  writer c t d = DOk tw -> short_header d (TwoDimensional k) ->
  (forall fuel r s', session c t d OrderC (TwoDimensional k) true vs e {| sk_data := D; sk_pos := lenN D; sk_fuel := fuel |} = (r, s') ->
     whole_or_error c' t d OrderC (TwoDimensional k) vs (sk_data s') (lenN D))
  <-> ~ mistakable (lenN vs) k.
Proof.
  intros c c' t d k vs e D tw Hw Ht Hsf Hvs He Hn Hk Hb Hwr Hsh. split.
  - intros H Hm. destruct (interrupted_mistaken c c' t d k vs e D tw Hw Ht Hsf Hvs He Hn Hk Hb Hwr Hsh Hm) as (fuel & r & s' & E & Hno). exact (Hno (H _ _ _ E)).
  - intros Hm fuel r s'. now apply interrupted_2d_c_safe.
Qed.
Print Assumptions C14_2d_c_exact.
(** A file is mistakable although nothing was pushed into it, and one with a row of a single item is not. *)
Example C14_mistakable : mistakable 0 12345678901234567 /\ ~ mistakable 7 1 /\ ~ mistakable 0 1234567890123456 /\ mistakable 100000000000000000 10
  /\ ~ mistakable 100000000000000000 1 /\ mistakable 1000000000000000000 1
  /\ short_header (plain Irrelevant TUint 1) (TwoDimensional 12345678901234567) /\ (exists tw, writer le64 (RInt false W1) (plain Irrelevant TUint 1) = DOk tw)
  /\ final_shape (TwoDimensional 12345678901234567) OrderC 0 = Some [0; 12345678901234567].
Proof.
  split; [ split; [ discriminate | split; [ reflexivity | left; split; discriminate ] ] | ].
  split; [ intros (_ & _ & H); change (numeral_length (7 / 1)) with 1 in H; change (numeral_length 1) with 1 in H; lia | ].
  split; [ intros (_ & _ & H); change (numeral_length (0 / 1234567890123456)) with 1 in H; change (numeral_length 1234567890123456) with 16 in H; lia | ].
  split; [ split; [ discriminate | split; [ reflexivity | left; split; discriminate ] ] | ].
  split; [ intros (_ & _ & H); change (numeral_length (100000000000000000 / 1)) with 18 in H; change (numeral_length 1) with 1 in H; lia | ].
  split; [ split; [ discriminate | split; [ reflexivity | right; right; reflexivity ] ] | ].
  split; [ vm_compute; discriminate | ]. split; [ eexists; reflexivity | reflexivity ].
Qed.

(** The general claim fails: with 17-digit rows a crash after 20 bytes of the final patch leaves the text
    [(0, 12345678901234567, 12345678901234567), }], and the file opens with three dimensions. *)
Theorem C14_2d_c_refuted : exists c c' t d k vs e fuel r s', wf_dtype d /\ Forall (has_type t) vs
  /\ Forall (fun v => exists b, encode t d v = Some b) vs /\ lenN vs < 2 ^ 64 /\ k < 2 ^ 64 /\ num_bytes c' d = Some 1
  /\ session c t d OrderC (TwoDimensional k) true vs e {| sk_data := []; sk_pos := 0; sk_fuel := fuel |} = (r, s')
  /\ ~ whole_or_error c' t d OrderC (TwoDimensional k) vs (sk_data s') 0
  /\ exists f src, npy_new c' {| cur_data := sk_data s'; cur_pos := 0 |} = (Ok f, src) /\ h_shape (nf_header f) = [0; k; k].
Proof.
  exists le64, be64, (RInt false W1), (plain Irrelevant TUint 1), 12345678901234567, [], Finished, (Some 151).
  destruct (session le64 (RInt false W1) (plain Irrelevant TUint 1) OrderC (TwoDimensional 12345678901234567) true [] Finished
    {| sk_data := []; sk_pos := 0; sk_fuel := Some 151 |}) as (r, s') eqn:E.
  exists r, s'. split; [ wf_case | ]. split; [ constructor | ]. split; [ constructor | ]. split; [ reflexivity | ]. split; [ reflexivity | ]. split; [ reflexivity | ].
  split; [ reflexivity | ].
  assert (H : exists f src, npy_new be64 {| cur_data := sk_data s'; cur_pos := 0 |} = (Ok f, src)
    /\ h_shape (nf_header f) = [0; 12345678901234567; 12345678901234567]).
  { replace s' with (snd (r, s')) by reflexivity. rewrite <- E. eexists _, _. split; vm_compute; reflexivity. }
  split; [ | exact H ]. destruct H as (f & src & Hf & Hs). unfold whole_or_error. rewrite Hf. intros (shape & payload & F & _ & _ & S & _).
  rewrite Hs in S. subst shape. vm_compute in F. discriminate.
Qed.
Print Assumptions C14_2d_c_refuted.

(** Concrete runs: one u8 pushed; every crash point up to the last byte of the patch gives an error, and from there on the file is whole. *)
Definition C14_run (h : shape_hint) (e : ending) (fuel : option N) : sink :=
  snd (session le64 (RInt false W1) (plain Irrelevant TUint 1) OrderC h true [XInt 5] e {| sk_data := [7; 7]; sk_pos := 2; sk_fuel := fuel |}).
Definition C14_seen (h : shape_hint) (e : ending) (fuel : option N) : option (list N) :=
  match npy_new be64 {| cur_data := sk_data (C14_run h e fuel); cur_pos := 2 |} with
  | (Ok f, _) => Some (h_shape (nf_header f))
  | _ => None
  end.
Example C14_case : C14_seen OneDimensional Finished None = Some [1] /\ C14_seen (TwoDimensional 1) Dropped None = Some [1; 1]
  /\ C14_seen OneDimensional Dropped (Some 20) = None /\ C14_seen OneDimensional Finished (Some 129) = None
  /\ C14_seen OneDimensional Finished (Some 150) = None /\ C14_seen OneDimensional Finished (Some 157) = Some [1]
  /\ lenN (sk_data (C14_run OneDimensional Finished (Some 150))) = 131
  /\ sk_data (C14_run OneDimensional Finished (Some 150)) <> sk_data (C14_run OneDimensional Finished (Some 129)).
Proof. repeat split; try (vm_compute; reflexivity). vm_compute. discriminate. Qed.
