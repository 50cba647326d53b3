(** Byte patterns of numbers. *)
From Verif Require Import M_Base M_Text M_TypeStr M_IO M_Header M_Serialize S_Shape S_Header S_Text S_Elem P_Base P_IO P_Shape.
Open Scope N_scope.

Lemma upto_S n : upto (1 + n) = 0 :: map (N.add 1) (upto n).
Proof.
  unfold upto. replace (N.to_nat (1 + n)) with (S (N.to_nat n)) by lia.
  cbn [seq map]. f_equal. rewrite <- seq_shift, !map_map. apply map_ext. intros; lia.
Qed.
Lemma le_bytes_digits n : forall v, le_bytes n v = map (fun i => v / 256 ^ i mod 256) (upto (N.of_nat n)).
Proof.
  induction n as [ | n IH ]; intros v; [ reflexivity | ].
  rewrite Nat2N.inj_succ, <- N.add_1_l, upto_S. cbn [le_bytes map]. rewrite N.pow_0_r, N.div_1_r. f_equal.
  rewrite IH, map_map. apply map_ext. intros i. rewrite N.pow_add_r, N.pow_1_r, N.div_div; try lia; try (apply N.pow_nonzero; lia); auto.
Qed.
Lemma number_eq e n v : number e n v = match e with Big => rev (le_bytes (N.to_nat n) v) | _ => le_bytes (N.to_nat n) v end.
Proof. unfold number. rewrite le_bytes_digits, N2Nat.id. reflexivity. Qed.

Lemma le_bytes_len n : forall v, lenN (le_bytes n v) = N.of_nat n.
Proof. induction n; intros v; cbn [le_bytes]; rewrite ?lenN_nil, ?lenN_cons, ?IHn; lia. Qed.
Lemma le_bytes_byte n : forall v, Forall (fun b => b < 256) (le_bytes n v).
Proof. induction n; intros v; cbn [le_bytes]; constructor; auto. lia. Qed.
Lemma le_value_le_bytes n : forall v, v < 256 ^ N.of_nat n -> le_value (le_bytes n v) = v.
Proof.
  induction n; intros v Hv; cbn [le_bytes le_value].
  - cbn in Hv. lia.
  - rewrite Nat2N.inj_succ, N.pow_succ_r' in Hv. rewrite IHn by (apply N.div_lt_upper_bound; lia). lia.
Qed.
Lemma le_bytes_le_value bs : Forall (fun b => b < 256) bs -> le_bytes (List.length bs) (le_value bs) = bs.
Proof.
  induction 1 as [ | b r Hb Hr IH ]; auto. cbn [List.length le_bytes le_value].
  replace ((b + 256 * le_value r) mod 256) with b by lia.
  replace ((b + 256 * le_value r) / 256) with (le_value r) by lia. now rewrite IH.
Qed.
Lemma le_value_bound bs : Forall (fun b => b < 256) bs -> le_value bs < 256 ^ lenN bs.
Proof.
  induction 1 as [ | b r Hb Hr IH ]; [ reflexivity | ]. cbn [le_value]. rewrite lenN_cons, N.pow_add_r, N.pow_1_r. lia.
Qed.
Lemma number_of_eq e bs : number_of e bs = match e with Big => le_value (rev bs) | _ => le_value bs end.
Proof. destruct e; reflexivity. Qed.

Lemma lenN_number e n v : lenN (number e n v) = n.
Proof. rewrite number_eq. destruct e; rewrite ?lenN_rev, le_bytes_len; lia. Qed.
Lemma number_bytes e n v : Forall (fun b => b < 256) (number e n v).
Proof. rewrite number_eq. destruct e; [ | apply Forall_rev | ]; apply le_bytes_byte. Qed.
Lemma number_of_number e n v : v < 256 ^ n -> number_of e (number e n v) = v.
Proof.
  intros H. rewrite number_of_eq, number_eq. destruct e; rewrite ?rev_involutive; apply le_value_le_bytes; rewrite N2Nat.id; auto.
Qed.
Lemma number_number_of e bs : Forall (fun b => b < 256) bs -> number e (lenN bs) (number_of e bs) = bs.
Proof.
  intros H. rewrite number_of_eq, number_eq. unfold lenN. rewrite Nat2N.id. destruct e; try (now apply le_bytes_le_value).
  rewrite <- rev_length. rewrite le_bytes_le_value by (now apply Forall_rev). apply rev_involutive.
Qed.
Lemma number_of_bound e bs : Forall (fun b => b < 256) bs -> number_of e bs < 256 ^ lenN bs.
Proof.
  intros H. rewrite number_of_eq. destruct e; try (now apply le_value_bound).
  rewrite <- (lenN_rev bs). apply le_value_bound. now apply Forall_rev.
Qed.

Lemma rev_le_1 v : rev (le_bytes 1 v) = le_bytes 1 v.
Proof. reflexivity. Qed.
Lemma rev_1 {A} (l : list A) : lenN l = 1 -> rev l = l.
Proof. destruct l as [ | x [ | y l ] ]; auto. rewrite !lenN_cons. lia. Qed.

(** Writing: native bytes after an optional swap are the named byte order. *)
Lemma write_bits_number c ts n v : (ts_endianness ts = Irrelevant -> n = 1) -> v < 256 ^ n ->
  write_bits c n (swap_for c ts) v = number (ts_endianness ts) n v.
Proof.
  intros Hi Hv. rewrite number_eq. unfold write_bits, swap_for, to_ne_bytes, swap_bytes, of_machine.
  set (L := le_bytes (N.to_nat n) v).
  assert (HL : le_bytes (N.to_nat n) (le_value (rev L)) = rev L).
  { replace (N.to_nat n) with (List.length (rev L)).
    - apply le_bytes_le_value. apply Forall_rev, le_bytes_byte.
    - rewrite rev_length. pose proof (le_bytes_len (N.to_nat n) v). unfold L, lenN in *. lia. }
  destruct (ts_endianness ts), (c_big c); cbn [requires_swap]; fold L; rewrite ?HL, ?rev_involutive; auto.
  apply rev_1. unfold L. rewrite le_bytes_len. rewrite Hi; auto.
Qed.
(** Reading. *)
Lemma read_bits_number c ts bs : (ts_endianness ts = Irrelevant -> lenN bs = 1) -> Forall (fun b => b < 256) bs ->
  (let out := from_ne_bytes c bs in if swap_for c ts then swap_bytes (N.to_nat (lenN bs)) out else out) = number_of (ts_endianness ts) bs.
Proof.
  intros Hi Hb. rewrite number_of_eq. cbv zeta. unfold swap_for, from_ne_bytes, swap_bytes, of_machine.
  assert (HL : forall l, Forall (fun b => b < 256) l -> lenN l = lenN bs -> le_bytes (N.to_nat (lenN bs)) (le_value l) = l).
  { intros l Hl El. rewrite <- El. unfold lenN. rewrite Nat2N.id. now apply le_bytes_le_value. }
  destruct (ts_endianness ts), (c_big c); cbn [requires_swap]; rewrite ?HL; rewrite ?rev_involutive; auto using Forall_rev, lenN_rev.
  rewrite rev_1; auto.
Qed.

Lemma run_read_bits c ts bs rest n : (ts_endianness ts = Irrelevant -> n = 1) -> Forall (fun b => b < 256) bs -> lenN bs = n ->
  run (read_bits c n (swap_for c ts)) (bs ++ rest) = (Ok (number_of (ts_endianness ts) bs), rest).
Proof.
  intros Hi Hb <-. unfold read_bits. rewrite run_bind, (run_read_exact (lenN bs) bs rest eq_refl). cbn [then_].
  cbn [run]. f_equal. f_equal. now apply read_bits_number.
Qed.
Lemma run_read_exact_short n input : lenN input < n -> run (read_exact n) input = (Err EUnexpectedEof, []).
Proof. intros H. unfold read_exact. cbn [run]. replace (n <=? lenN input) with false by lia. reflexivity. Qed.
