(** C84: arrays saved to an archive whose output gives out. *)
From Verif Require Import M_Base M_Text M_TypeStr M_PyLit M_IO M_Header M_Read M_Serialize M_NpyReader M_Write M_Npz.
From Verif Require Import S_Text S_TypeStr S_DType S_Shape S_Header S_Elem S_Strings S_Write S_Npz S_Halted.
From Verif Require Import P_Base P_Halted T_Elem T_Reader T_Write T_Npz.
Require Import ZifyBool ZifyNat ZifyN.
Open Scope N_scope.

(** Anything saved (arrays or not: values may be refused, or too few), any archive, any amount of output: everything as without a limit; or, only if there is not enough for that, the error of the
    output and a beginning of what would have been there. *)
Theorem C84_exact : forall c l a n, exists r new,
  save_all c l {| nz_entries := a; nz_fuel := None |} = (r, {| nz_entries := a ++ new; nz_fuel := None |})
  /\ ((exists k, save_all c l {| nz_entries := a; nz_fuel := Some n |} = (r, {| nz_entries := a ++ new; nz_fuel := Some k |}))
      \/ n < enough new /\ exists left k, halted l new left /\ save_all c l {| nz_entries := a; nz_fuel := Some n |} = (Err ESink, {| nz_entries := a ++ left; nz_fuel := Some k |})).
Proof.
  intros c l a n. destruct (any_halted c l a) as (r & new & E & H). exists r, new. split; [ exact E | ]. destruct (H n) as [ (k & H' & _) | H' ]; [ left; eauto | right; exact H' ].
Qed.
Print Assumptions C84_exact.
(** After a failure some first arrays of the list are as saved ([z1]; what is found there: C40).  Every other name but that of the next array
    is as it was.  That one is not there yet; or opening it gives an error or a file of which no type of value can read all; or it is whole,
    which takes a writer that was finished: then only the flush failed. *)
Theorem C84_after_failure : forall c c' l a n r z', Forall is_array l -> Forall (can_write c) l -> save_all c l {| nz_entries := a; nz_fuel := Some n |} = (r, z') -> r <> Ok tt ->
  r = Err ESink /\ exists done x rest z1, l = done ++ x :: rest /\ save_all c done {| nz_entries := a; nz_fuel := None |} = (Ok tt, z1)
  /\ (forall name, name <> sv_name x -> by_name c' (nz_entries z') name = by_name c' (nz_entries z1) name)
  /\ (by_name c' (nz_entries z') (sv_name x) = by_name c' (nz_entries z1) (sv_name x)
      \/ (sizes_fit (c_usize_max c') (sv_dtype x) -> strings_fit (c_usize_max c') (sv_dtype x) ->
          by_name c' (nz_entries z') (sv_name x) <> Panic /\ by_name c' (nz_entries z') (sv_name x) <> Ok None
          /\ forall f, by_name c' (nz_entries z') (sv_name x) = Ok (Some f) -> forall t vs, fst (npy_into_vec c' t f) <> Ok vs)
      \/ sv_ending x = Finished /\ (can_read c' x ->
          found c' (nz_entries z') (sv_name x) (sv_type x) (sv_dtype x) (sv_order x) (sv_shape x) (map (read_back (sv_type x) (sv_dtype x)) (sv_vals x)))).
Proof. exact after_failure. Qed.
Print Assumptions C84_after_failure.
(** Under different names, nothing that was saved before the failure is lost, and the names not reached lead where they did before. *)
Theorem C84_kept : forall c c' l a n r z', Forall is_array l -> Forall (can_write c) l -> NoDup (map sv_name l) -> save_all c l {| nz_entries := a; nz_fuel := Some n |} = (r, z') -> r <> Ok tt ->
  exists done x rest, l = done ++ x :: rest
  /\ Forall (fun y => can_read c' y -> found c' (nz_entries z') (sv_name y) (sv_type y) (sv_dtype y) (sv_order y) (sv_shape y) (map (read_back (sv_type y) (sv_dtype y)) (sv_vals y))) done
  /\ forall name, ~ In name (map sv_name (done ++ [x])) -> by_name c' (nz_entries z') name = by_name c' a name.
Proof. exact kept. Qed.
Print Assumptions C84_kept.
Definition C84_left (n : N) : res unit * archive := let '(r, z) := save_all le64 Z_list {| nz_entries := []; nz_fuel := Some n |} in (r, nz_entries z).
(** The arrays need 188 and 134 bytes.  After 189 effects the first is whole and only its flush fails; after 190 the second flush, by the drop
    of the writer, fails unnoticed and the next array cannot be started; the last flush after 326 is unnoticed too. *)
Example C84_case : map (fun n => (fst (C84_left n), map (fun e => lenN (snd e)) (snd (C84_left n)))) [0; 1; 100; 188; 189; 190; 191; 192; 300; 325; 326; 328]
    = [ (Err ESink, []); (Err ESink, [0]); (Err ESink, [99]); (Err ESink, [187]); (Err ESink, [188]); (Err ESink, [188]); (Err ESink, [188]); (Err ESink, [188; 0]); (Err ESink, [188; 108]); (Err ESink, [188; 133]); (Ok tt, [188; 134]); (Ok tt, [188; 134]) ]
  /\ Forall is_array Z_list /\ Forall (can_write le64) Z_list /\ NoDup (map sv_name Z_list) /\ Forall (can_read be64) Z_list
  /\ (exists e, by_name be64 (snd (C84_left 192)) (lit "b.npy") = Err e)
  /\ (exists f e, by_name be64 (snd (C84_left 325)) (lit "b.npy") = Ok (Some f) /\ fst (npy_into_vec be64 (RInt false W2) f) = Err e)
  /\ enough (snd (C84_left 326)) = 328.
Proof.
  destruct C40_case_ok as (H1 & H2 & H3 & H4 & _). split; [ vm_compute; reflexivity | ]. split; [ exact H1 | ]. split; [ exact H2 | ]. split; [ exact H4 | ]. split; [ exact H3 | ].
  split; [ eexists; vm_compute; reflexivity | ]. split; [ | vm_compute; reflexivity ]. eexists _, _. split; [ vm_compute; reflexivity | vm_compute; reflexivity ].
Qed.
(** That an error means the array is not there is false: finishing fails, but all is written. *)
Theorem C84_error_absent_refuted : exists n r z', save_all le64 Z_list {| nz_entries := []; nz_fuel := Some n |} = (r, z') /\ r = Err ESink
  /\ found be64 (nz_entries z') (lit "a") case_type case_dtype OrderFortran [1; 2] W_vals.
Proof.
  exists 189. eexists _, _. split; [ vm_compute; reflexivity | ]. split; [ reflexivity | ].
  unfold found. eexists. split; [ vm_compute; reflexivity | ]. split; [ reflexivity | ]. split; [ reflexivity | ]. split; [ reflexivity | ]. vm_compute; reflexivity.
Qed.
Print Assumptions C84_error_absent_refuted.
(** Different names matter: an array that could be read is lost when saving another under its name fails, before anything of that is written. *)
Theorem C84_older_refuted : exists x y z z', save le64 x npz_new = (Ok tt, z) /\ found be64 (nz_entries z) (sv_name x) (sv_type x) (sv_dtype x) (sv_order x) (sv_shape x) (sv_vals x)
  /\ sv_name y = sv_name x /\ save le64 y {| nz_entries := nz_entries z; nz_fuel := Some 1 |} = (Err ESink, z') /\ exists e, by_name be64 (nz_entries z') (sv_name x) = Err e.
Proof.
  set (x := {| sv_name := lit "b"; sv_type := RInt false W2; sv_dtype := plain Big TUint 2; sv_order := OrderC; sv_shape := [3]; sv_vals := [XInt 1; XInt 2; XInt 65535]; sv_ending := Dropped |}).
  exists x, x. eexists _, _. split; [ vm_compute; reflexivity | ].
  split; [ unfold found; eexists; split; [ vm_compute; reflexivity | ]; split; [ reflexivity | ]; split; [ reflexivity | ]; split; [ reflexivity | ]; vm_compute; reflexivity | ].
  split; [ reflexivity | ]. split; [ vm_compute; reflexivity | ]. eexists. vm_compute. reflexivity.
Qed.
Print Assumptions C84_older_refuted.
(** A list that cannot be saved anyway: the second array has a value too many.  With enough output its error is returned, else that of the output. *)
Definition C84_bad : saved := {| sv_name := lit "w"; sv_type := RInt false W2; sv_dtype := plain Big TUint 2; sv_order := OrderC; sv_shape := [2]; sv_vals := [XInt 1; XInt 2; XInt 3]; sv_ending := Finished |}.
Example C84_case_bad : map (fun n => let '(r, z) := save_all le64 (Z_list ++ [C84_bad]) {| nz_entries := []; nz_fuel := n |} in (r, map (fun e => lenN (snd e)) (nz_entries z))) [None; Some 400; Some 462; Some 461]
  = [ (Err (EData (lit "shape has 2 item(s), but 3 item(s) were written!")), [188; 134; 134]); (Err ESink, [188; 134; 72]); (Err (EData (lit "shape has 2 item(s), but 3 item(s) were written!")), [188; 134; 134]); (Err ESink, [188; 134; 133]) ].
Proof. vm_compute. reflexivity. Qed.
