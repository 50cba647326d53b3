(** C81: any number of values, also more than the counter of the writer can count.  C08, C09, C12 and C64 assume fewer than 2^64. *)
From Verif Require Import M_Base M_Text M_TypeStr M_PyLit M_IO M_Header M_Read M_Serialize M_NpyReader M_Write.
From Verif Require Import S_Text S_TypeStr S_DType S_Shape S_Header S_Elem S_Strings S_Reader S_Write S_Reject S_DText S_File S_Fault S_Message S_Outcome S_Tally P_Base P_Header P_Elem P_Codec P_Tally T_Elem T_Write.
Open Scope N_scope.

(** Exactly what a session gives and leaves behind. *)
Theorem C81_session_exactly : forall c t d o h vs e s r file, wf_dtype d -> strings_fit (c_usize_max c) d -> top_level d -> Forall (has_type t) vs ->
  hint_ok h -> short_header d h -> sk_fuel s = None ->
  (exists s', session c t d o h (output_kind h) vs e s = (r, s') /\ placed (sk_data s) (sk_pos s) file (sk_data s') /\ sk_pos s' = sk_pos s + lenN file)
  <-> any_session (c_ovf_panics c) (c_usize_max c) t d o h vs e r file.
Proof. exact any_session_iff. Qed.
Print Assumptions C81_session_exactly.
Theorem C81_write_total : forall c t d o h vs s, wf_dtype d -> strings_fit (c_usize_max c) d -> top_level d -> Forall (has_type t) vs ->
  hint_ok h -> short_header d h -> sk_fuel s = None ->
  exists r file s', write_file c t d o h (output_kind h) vs s = (r, s') /\ any_write (c_ovf_panics c) (c_usize_max c) t d o h vs r file
  /\ placed (sk_data s) (sk_pos s) file (sk_data s') /\ sk_pos s' = sk_pos s + lenN file /\ sk_fuel s' = None.
Proof. exact any_write_total. Qed.
Print Assumptions C81_write_total.
(** When it succeeds, for values that can all be stored. *)
Theorem C81_result : forall c t d o h vs s, wf_dtype d -> strings_fit (c_usize_max c) d -> top_level d -> accepts (c_usize_max c) Writing t d -> Forall (has_type t) vs ->
  Forall (fun v => exists b, encode t d v = Some b) vs -> hint_ok h -> short_header d h -> sk_fuel s = None ->
  (c_ovf_panics c = true -> 2 ^ 64 <= lenN vs -> fst (write_file c t d o h (output_kind h) vs s) = Panic)
  /\ (c_ovf_panics c = false -> (fst (write_file c t d o h (output_kind h) vs s) = Ok tt <-> exists shape, final_shape h o (lenN vs mod 2 ^ 64) = Some shape)).
Proof. exact any_result. Qed.
Print Assumptions C81_result.
(** What the file left behind is read as, whether or not the writer panicked: as many of the first values as the writer counted. *)
Theorem C81_reads : forall c c' t d o h vs s r s' shape, wf_dtype d -> strings_fit (c_usize_max c) d -> top_level d -> accepts (c_usize_max c) Writing t d -> Forall (has_type t) vs ->
  Forall (fun v => exists b, encode t d v = Some b) vs -> hint_ok h -> short_header d h -> sk_fuel s = None ->
  write_file c t d o h (output_kind h) vs s = (r, s') -> final_shape h o (tally (c_ovf_panics c) (lenN vs)) = Some shape ->
  accepts (c_usize_max c') Reading t d -> sizes_fit (c_usize_max c') d -> strings_fit (c_usize_max c') d ->
  reads_as c' t (sk_data s') (sk_pos s) d o shape (map (read_back t d) (takeN (tally (c_ovf_panics c) (lenN vs)) vs)).
Proof. exact any_reads. Qed.
Print Assumptions C81_reads.

(** [u8]s in a [u8] dtype, on the machines of T_Elem.v: [le64] checks arithmetic, [be64] does not. *)
Definition C81_dtype : dtype := plain Irrelevant TUint 1.
Lemma u8_fine : wf_dtype C81_dtype /\ strings_fit usize64 C81_dtype /\ top_level C81_dtype /\ accepts usize64 Writing (RInt false W1) C81_dtype
  /\ accepts usize64 Reading (RInt false W1) C81_dtype /\ sizes_fit usize64 C81_dtype /\ short_header C81_dtype OneDimensional.
Proof. split; [ wf_case | ]. do 5 (split; [ first [ exact I | vm_compute; repeat split; discriminate | vm_compute; intuition discriminate ] | ]). vm_compute. discriminate. Qed.
Lemma sevens n : exists vs, lenN vs = n /\ Forall (eq (XInt 7)) vs.
Proof. exists (List.repeat (XInt 7) (N.to_nat n)). split; [ unfold lenN; now rewrite repeat_length, N2Nat.id | ]. apply Forall_forall. intros x Hx. now apply repeat_spec in Hx. Qed.
Lemma sevens_fine vs : Forall (eq (XInt 7)) vs -> Forall (has_type (RInt false W1)) vs /\ Forall (fun v => exists b, encode (RInt false W1) C81_dtype v = Some b) vs
  /\ Forall (survives (RInt false W1) C81_dtype) vs.
Proof. intros H. split; [ | split ]; (eapply Forall_impl; [ | exact H ]); intros x <-; [ cbn; lia | eexists; vm_compute; reflexivity | exact I ]. Qed.

(** So that the length of the file is the number of values pushed, as C08 has it, is false without its bound: the writer says [Ok] and the file
    holds no value at all. *)
Theorem C81_length_refuted : exists c c' t d o vs s s', wf_dtype d /\ Forall (has_type t) vs /\ write_file c t d o OneDimensional true vs s = (Ok tt, s')
  /\ accepts (c_usize_max c') Reading t d /\ sizes_fit (c_usize_max c') d /\ strings_fit (c_usize_max c') d /\ Forall (survives t d) vs
  /\ reads_as c' t (sk_data s') (sk_pos s) d o [0] [] /\ ~ reads_as c' t (sk_data s') (sk_pos s) d o [lenN vs] vs.
Proof.
  destruct u8_fine as (H1 & H2 & H3 & H4 & H5 & H6 & H7). destruct (sevens (2 ^ 64)) as (vs & L & V7). destruct (sevens_fine vs V7) as (V & E & S).
  destruct (wrapped_file be64 le64 (RInt false W1) C81_dtype OrderC vs W_sink eq_refl H1 H2 H3 H4 V E H7 eq_refl H5 H6 H2) as (s' & W & R); [ rewrite L; reflexivity | ].
  exists be64, le64, (RInt false W1), C81_dtype, OrderC, vs, W_sink, s'.
  do 7 (split; [ assumption | ]). split; [ exact R | ].
  intros R'. destruct (reads_as_shape _ _ _ _ _ _ _ _ _ _ _ _ R R') as (S' & _). rewrite L in S'. discriminate.
Qed.
Print Assumptions C81_length_refuted.

(** 2^64 + 3 values: with checked arithmetic a panic and the first 2^64 - 1 of them; without, success and the first 3. *)
Example C81_case : let t := RInt false W1 in exists vs, lenN vs = 2 ^ 64 + 3 /\ Forall (eq (XInt 7)) vs
  /\ wf_dtype C81_dtype /\ strings_fit usize64 C81_dtype /\ top_level C81_dtype /\ accepts usize64 Writing t C81_dtype /\ Forall (has_type t) vs
  /\ Forall (fun v => exists b, encode t C81_dtype v = Some b) vs /\ short_header C81_dtype OneDimensional /\ sk_fuel W_sink = None
  /\ fst (write_file le64 t C81_dtype OrderC OneDimensional true vs W_sink) = Panic
  /\ reads_as be64 t (sk_data (snd (write_file le64 t C81_dtype OrderC OneDimensional true vs W_sink))) 2 C81_dtype OrderC [2 ^ 64 - 1]
       (map (read_back t C81_dtype) (takeN (2 ^ 64 - 1) vs))
  /\ fst (write_file be64 t C81_dtype OrderC OneDimensional true vs W_sink) = Ok tt
  /\ reads_as le64 t (sk_data (snd (write_file be64 t C81_dtype OrderC OneDimensional true vs W_sink))) 2 C81_dtype OrderC [3] [XInt 7; XInt 7; XInt 7].
Proof.
  cbv zeta. destruct u8_fine as (H1 & H2 & H3 & H4 & H5 & H6 & H7). destruct (sevens (2 ^ 64 + 3)) as (vs & L & V7). destruct (sevens_fine vs V7) as (V & E & S).
  exists vs. do 10 (split; [ first [ assumption | reflexivity ] | ]).
  destruct (C81_result le64 (RInt false W1) C81_dtype OrderC OneDimensional vs W_sink H1 H2 H3 H4 V E I H7 eq_refl) as (P & _).
  destruct (C81_result be64 (RInt false W1) C81_dtype OrderC OneDimensional vs W_sink H1 H2 H3 H4 V E I H7 eq_refl) as (_ & Q).
  split; [ apply P; [ reflexivity | rewrite L; discriminate ] | ]. split.
  { destruct (write_file le64 _ _ _ _ _ _ _) as (r, s') eqn:W.
    pose proof (C81_reads le64 be64 (RInt false W1) C81_dtype OrderC OneDimensional vs W_sink r s' [2 ^ 64 - 1] H1 H2 H3 H4 V E I H7 eq_refl W) as R.
    rewrite L in R. exact (R eq_refl H5 H6 H2). }
  split; [ apply Q; [ reflexivity | rewrite L; eexists; reflexivity ] | ].
  destruct (write_file be64 _ _ _ _ _ _ _) as (r, s') eqn:W.
  pose proof (C81_reads be64 le64 (RInt false W1) C81_dtype OrderC OneDimensional vs W_sink r s' [3] H1 H2 H3 H4 V E I H7 eq_refl W) as R.
  rewrite L in R. specialize (R eq_refl H5 H6 H2). change (tally (c_ovf_panics be64) (2 ^ 64 + 3)) with 3 in R.
  do 3 (destruct vs as [ | v vs ]; [ discriminate L | ]; inversion V7 as [ | v' vs' Hv V7' ]; subst; clear V7; rename V7' into V7). exact R.
Qed.
