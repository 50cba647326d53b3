(** C48: text.  UTF-8 and decimal numerals are what the standards say. *)
From Verif Require Import M_Base M_Text S_Text P_Base P_Text.
Open Scope N_scope.

Lemma utf8_exact bs s : Forall (fun b => b < 256) bs ->
  from_utf8 bs = Some s <-> Forall (fun ch => scalar_value ch = true) s /\ utf8_string s = bs.
Proof.
  intros Hb. split.
  - intros H. apply from_utf8_sound in H; auto.
  - intros (H1 & <-). now apply from_utf8_utf8.
Qed.
(** C48: a sequence of bytes is accepted as text exactly if it is the UTF-8 form of Unicode scalar values, and gives those. *)
Theorem C48_utf8_exact : forall bs s, Forall (fun b => b < 256) bs ->
  from_utf8 bs = Some s <-> Forall (fun ch => scalar_value ch = true) s /\ utf8_string s = bs.
Proof. exact utf8_exact. Qed.
Print Assumptions C48_utf8_exact.

(** Encoding a string and decoding it again; no two strings have the same bytes. *)
Theorem C48_utf8_text : forall s, Forall (fun ch => scalar_value ch = true) s -> utf8 s = utf8_string s /\ from_utf8 (utf8 s) = Some s.
Proof. exact (fun s H => conj eq_refl (from_utf8_utf8 s H)). Qed.
Print Assumptions C48_utf8_text.

Lemma decimal_value_snoc a x : decimal_value (a ++ [x]) = 10 * decimal_value a + (x - 48).
Proof.
  induction a as [ | y a IH ]; cbn [app decimal_value List.length].
  - change (N.of_nat 0) with 0. rewrite N.pow_0_r. lia.
  - rewrite IH, app_length. cbn [List.length]. rewrite Nat.add_1_r, Nat2N.inj_succ, N.pow_succ_r'. lia.
Qed.
Lemma decimal_value_dec_value ds : decimal_value ds = dec_value ds.
Proof.
  induction ds as [ | x ds IH ] using rev_ind; [ reflexivity | ]. rewrite decimal_value_snoc, dec_value_app, IH. cbn [fold_left]. lia.
Qed.
Lemma dec_shortest n : shortest_numeral (dec n) n.
Proof.
  split; [ | split ].
  - eapply Forall_impl; [ | apply dec_digits ]. intros a. unfold is_digit. cbv beta. lia.
  - rewrite decimal_value_dec_value. apply dec_value_dec.
  - destruct (N.eq_dec n 0) as [ -> | Hn ]; [ left; apply dec_0 | right ]. destruct (dec_head n Hn) as (d & r & E & Hd). exists d, r. split; [ exact E | lia ].
Qed.
Lemma decimal_value_lower d r : 48 <= d -> (d - 48) * 10 ^ N.of_nat (List.length r) <= decimal_value (d :: r).
Proof. intros H. cbn [decimal_value]. lia. Qed.
Lemma shortest_unique ds n : shortest_numeral ds n -> ds = dec n.
Proof.
  intros (Hd & Hv & Hz). revert n Hv Hz. induction ds as [ | x ds IH ] using rev_ind; intros n Hv Hz.
  { destruct Hz as [ E | (d & r & E & _) ]; discriminate. }
  apply Forall_app in Hd as (Hd & Hx). apply Forall_inv in Hx. rewrite decimal_value_snoc in Hv. rewrite dec_eq.
  destruct ds as [ | d ds ].
  - cbn [decimal_value] in Hv. replace (n / 10) with 0 by (symmetry; apply N.div_small; lia). cbn [N.eqb app]. f_equal. rewrite N.mod_small by lia. lia.
  - assert (Hd48 : d <> 48).
    { destruct Hz as [ E | (d' & r' & E & Hne) ]; [ destruct ds; discriminate | ]. cbn [app] in E. congruence. }
    assert (Hq : n / 10 = decimal_value (d :: ds)) by (symmetry; apply (N.div_unique _ _ _ (x - 48)); lia).
    assert (Hm : n mod 10 = x - 48) by (symmetry; apply (N.mod_unique _ _ (decimal_value (d :: ds))); lia).
    rewrite Hq, Hm. assert (Hpos : decimal_value (d :: ds) <> 0).
    { pose proof (Forall_inv Hd) as Hdd. pose proof (decimal_value_lower d ds (proj1 Hdd)) as Hl.
      pose proof (N.pow_nonzero 10 (N.of_nat (List.length ds)) ltac:(discriminate)) as Hp. cbv beta in Hdd. assert (1 <= d - 48) by lia.
      apply N.neq_0_lt_0. eapply N.lt_le_trans; [ | exact Hl ]. apply N.mul_pos_pos; lia. }
    replace (decimal_value (d :: ds) =? 0) with false by lia.
    rewrite <- (IH Hd (decimal_value (d :: ds)) eq_refl); [ f_equal; f_equal; lia | ]. right. now exists d, ds.
Qed.
Lemma decimal_exact ds n : ds = dec n <-> shortest_numeral ds n.
Proof. split; [ intros ->; apply dec_shortest | apply shortest_unique ]. Qed.
(** Numbers are printed as their shortest decimal numeral, which is unique. *)
Theorem C48_decimal : forall ds n, ds = dec n <-> shortest_numeral ds n.
Proof. exact decimal_exact. Qed.
Print Assumptions C48_decimal.

(** A string of digits is read as the number it denotes, if that is below 2^64. *)
Lemma parse_number ds n : parse_u64 ds = Some n <-> decimal_value ds = n /\ n < 2 ^ 64.
Proof.
  unfold parse_u64. rewrite <- decimal_value_dec_value. destruct (N.ltb_spec (decimal_value ds) (2 ^ 64)).
  - split; [ intros H1; apply (f_equal (fun o => match o with Some n => n | None => 0 end)) in H1; cbn in H1; lia | intros (-> & _); reflexivity ].
  - split; [ discriminate | lia ].
Qed.
Theorem C48_parse_number : forall ds n, parse_u64 ds = Some n <-> decimal_value ds = n /\ n < 2 ^ 64.
Proof. exact parse_number. Qed.
Print Assumptions C48_parse_number.

Example C48_case :
  from_utf8 [0xE2; 0x82; 0xAC; 65] = Some [0x20AC; 65] /\ from_utf8 [0xED; 0xA0; 0x80] = None /\ from_utf8 [0xED; 0xBF; 0xBF] = None
  /\ from_utf8 [0xC0; 0x80] = None /\ from_utf8 [0xF4; 0x90; 0x80; 0x80] = None /\ from_utf8 [0xF4; 0x8F; 0xBF; 0xBF] = Some [0x10FFFF]
  /\ dec 1203 = lit "1203" /\ dec 0 = lit "0" /\ parse_u64 (lit "0012") = Some 12
  /\ scalar_value 0xDFFF = false /\ scalar_value 0xE000 = true /\ scalar_value 0xD7FF = true /\ scalar_value 0x110000 = false.
Proof. repeat split. Qed.
