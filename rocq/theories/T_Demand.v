(** C88: what reading a file demands of memory. *)
From Verif Require Import M_Base M_Text M_TypeStr M_IO M_Header M_Read M_Serialize M_NpyReader M_Demand S_Shape S_Elem S_Demand P_Base P_Demand T_Elem T_Reader.
Open Scope N_scope.

(** The full claim, that what is demanded is in proportion to the input, is false ([C88_refuted]).  What holds: *)

(** every buffer but the last one made is filled, so together they are no larger than the input; *)
Theorem C88_filled_partial : forall A (p : rprog A) bs, total (removelast (buffers p bs)) <= lenN bs.
Proof. exact @proportional. Qed.

(** opening a file makes at most three buffers, each below 4 GiB, and below 64 KiB in version 1 of the format (byte 6 of the file); *)
Theorem C88_open_partial : forall c bs, Forall (fun b => b < 256) bs ->
  (List.length (buffers (read_and_interpret c) bs) <= 3)%nat
  /\ Forall (fun n => n <= 2 ^ 32 - 1) (buffers (read_and_interpret c) bs)
  /\ (nth 6 bs 0 = 1 -> Forall (fun n => n <= 65535) (buffers (read_and_interpret c) bs)).
Proof. exact open_demand. Qed.

(** the buffers for one item are together no larger than the item, whatever the bytes are; *)
Theorem C88_item_partial : forall c t d r bs, reader c t d = DOk r -> total (buffers (read_one c r) bs) <= size d.
Proof. exact item_demand. Qed.

(** no buffer for a whole file is larger than 4 GiB and an item; *)
Theorem C88_file_partial : forall c t bs, Forall (fun b => b < 256) bs ->
  Forall (fun n => n <= 2 ^ 32 - 1 \/ exists h rest, run (read_and_interpret c) bs = (Ok h, rest) /\ n <= size (h_dtype h)) (buffers (into_vec_prog c t) bs).
Proof. exact file_demand. Qed.

(** so the buffers together exceed the input by at most that much; *)
Theorem C88_total_partial : forall c t bs h rest, Forall (fun b => b < 256) bs -> run (read_and_interpret c) bs = (Ok h, rest) ->
  total (buffers (into_vec_prog c t) bs) <= lenN bs + N.max (2 ^ 32 - 1) (size (h_dtype h)).
Proof. exact file_total. Qed.

(** and the items read, at the size they have in the file, are no larger than the input. *)
Theorem C88_items_partial : forall c t bs h vs rest, Forall (fun b => b < 256) bs -> run (into_vec_prog c t) bs = (Ok (h, vs), rest) ->
  lenN vs * size (h_dtype h) <= lenN bs.
Proof. exact items_demand. Qed.

(** But twelve bytes make opening ask for 4 GiB; *)
Theorem C88_header_refuted : exists bs, lenN bs = 12 /\ forall c, buffers (read_and_interpret c) bs = [8; 4; 2 ^ 32 - 1].
Proof. exists (0x93 :: lit "NUMPY" ++ [2; 0; 255; 255; 255; 255]). split; [ reflexivity | ]. intros c. rewrite open_list. vm_compute. reflexivity. Qed.
(** 128 bytes make reading one string ask for as much as can be allocated; *)
Theorem C88_item_refuted : forall m, m < 2 ^ 64 -> exists file, lenN file <= 128 /\ forall c, m <= isize_max c -> In m (buffers (into_vec_prog c RVecU8) file).
Proof. exact large_file. Qed.
(** and 128 bytes hold any number of items of no size, all of which are put into the vector. *)
Theorem C88_refuted : forall n, n < 2 ^ 64 -> exists file, lenN file <= 128
  /\ forall c, exists h, run (into_vec_prog c RVecU8) file = (Ok (h, repeat (XBytes []) (N.to_nat n)), []).
Proof. exact nothing_file. Qed.

(** A file of three two-byte numbers: the preamble, the text and the items; cut short, the last buffer stays unfilled. *)
Definition C88_file : bytes := npy_text "'<u2'" "(3,)" [1; 0; 2; 0; 3; 0].
Example C88_case :
  Forall (fun b => b < 256) C88_file
  /\ buffers (into_vec_prog le64 (RInt false W2)) C88_file = [8; 2; lenN C88_file - 16; 2; 2; 2]
  /\ total (buffers (into_vec_prog le64 (RInt false W2)) C88_file) = lenN C88_file
  /\ buffers (into_vec_prog le64 (RInt false W2)) (takeN (lenN C88_file - 3) C88_file) = [8; 2; lenN C88_file - 16; 2; 2]
  /\ (exists h, run (into_vec_prog le64 (RInt false W2)) C88_file = (Ok (h, map XInt [1; 2; 3]%Z), []) /\ size (h_dtype h) = 2)
  /\ (exists r, reader le64 RVecU8 (plain Irrelevant TByteStr 5) = DOk r /\ buffers (read_one le64 r) [1; 2] = [5]).
Proof.
  split; [ repeat constructor | ]. split; [ vm_compute; reflexivity | ]. split; [ vm_compute; reflexivity | ]. split; [ vm_compute; reflexivity | ]. split.
  - eexists. split; vm_compute; reflexivity.
  - eexists. split; vm_compute; reflexivity.
Qed.

Print Assumptions C88_filled_partial.
Print Assumptions C88_open_partial.
Print Assumptions C88_item_partial.
Print Assumptions C88_file_partial.
Print Assumptions C88_total_partial.
Print Assumptions C88_items_partial.
Print Assumptions C88_header_refuted.
Print Assumptions C88_item_refuted.
Print Assumptions C88_refuted.
