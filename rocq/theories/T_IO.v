(** C31: the result of reading does not depend on how the input arrives. *)
From Verif Require Import M_Base M_Text M_TypeStr M_IO M_Header M_Read M_Serialize M_NpyReader P_Base P_IO.
Open Scope N_scope.

(** A schedule lists what successive [read] calls deliver: [Some chunk] (not empty, since an empty one means end of file) or
    [None] for an interrupted call.  Any two schedules with the same bytes give the same header, items, errors, and leave the same
    bytes unread, for opening a file, reading one item and reading the whole array. *)
Theorem C31_chunking_irrelevant : forall A (p : rprog A) s1 s2,
  live s1 -> live s2 -> sched_bytes s1 = sched_bytes s2 ->
  fst (run_sched p s1) = fst (run_sched p s2)
  /\ sched_bytes (snd (run_sched p s1)) = sched_bytes (snd (run_sched p s2)).
Proof. exact @run_sched_same. Qed.
Print Assumptions C31_chunking_irrelevant.

(** And both agree with reading from a byte slice. *)
Theorem C31_into_vec : forall c t s, live s ->
  fst (run_sched (into_vec_prog c t) s) = fst (run (into_vec_prog c t) (sched_bytes s))
  /\ sched_bytes (snd (run_sched (into_vec_prog c t) s)) = snd (run (into_vec_prog c t) (sched_bytes s)).
Proof. exact (fun c t s H => let 'conj a (conj b _) := run_sched_run (into_vec_prog c t) s H in conj a b). Qed.
Print Assumptions C31_into_vec.

Theorem C31_header : forall c s, live s ->
  fst (run_sched (read_and_interpret c) s) = fst (run (read_and_interpret c) (sched_bytes s))
  /\ sched_bytes (snd (run_sched (read_and_interpret c) s)) = snd (run (read_and_interpret c) (sched_bytes s)).
Proof. exact (fun c s H => let 'conj a (conj b _) := run_sched_run (read_and_interpret c) s H in conj a b). Qed.
Print Assumptions C31_header.

Definition C31_file : bytes := 0x93 :: lit "NUMPY" ++ [1; 0; 60; 0] ++ lit "{'descr': '|u1', 'fortran_order': False, 'shape': (3,), }  " ++ [10; 7; 8; 9; 99].
Definition C31_cfg : cfg := {| c_big := false; c_usize_max := usize64; c_ovf_panics := true |}.
Fixpoint C31_split (n : nat) (bs : bytes) : schedule :=
  match n with
  | O => [Some bs]
  | S n' => match bs with
            | [] => []
            | [x] => [None; Some [x]]
            | x :: y :: r => Some [x] :: None :: Some [y] :: C31_split n' r
            end
  end.
Example C31_case : live (C31_split 20 C31_file) /\ sched_bytes (C31_split 20 C31_file) = C31_file
  /\ (exists h, fst (run_sched (into_vec_prog C31_cfg (RInt false W1)) (C31_split 20 C31_file)) = Ok (h, [XInt 7; XInt 8; XInt 9])).
Proof.
  split; [ repeat constructor; discriminate | ]. split; [ reflexivity | ]. eexists. vm_compute. reflexivity.
Qed.
