(** Values that cannot be stored and items that cannot be read. *)
From Verif Require Import M_Base M_Text M_TypeStr M_TypeErr M_IO M_Header M_Serialize S_Text S_TypeStr S_TypeErr S_DType S_Shape S_Header S_Elem S_Fault
  P_Base P_Text P_TypeStr P_TypeErr P_IO P_Shape P_Header P_Number P_Elem P_ReadOne P_WriteOne P_Codec T_Text.
Open Scope N_scope.

(** * Hexadecimal numerals *)
Lemma hex_aux_acc f : forall n acc, hex_aux 97 f n acc = hex_aux 97 f n [] ++ acc.
Proof.
  induction f as [ | f IH ]; intros n acc; [ reflexivity | ]. cbn [hex_aux]. destruct (n / 16 =? 0); [ reflexivity | ].
  rewrite IH, (IH (n / 16) [_]), <- app_assoc. reflexivity.
Qed.
Lemma log2_div16 n : n / 16 <> 0 -> (N.to_nat (N.log2 (n / 16)) < N.to_nat (N.log2 n))%nat.
Proof.
  intros H. replace (n / 16) with (N.shiftr n 4) in * by (rewrite N.shiftr_div_pow2; reflexivity). rewrite N.log2_shiftr by lia.
  assert (4 <= N.log2 n); [ | lia ]. rewrite N.shiftr_div_pow2 in H. change (2 ^ 4) with 16 in H.
  apply N.log2_le_pow2; [ | change (2 ^ 4) with 16 ]; lia.
Qed.
Lemma hex_aux_fuel f : forall g n, (N.to_nat (N.log2 n) < f)%nat -> (N.to_nat (N.log2 n) < g)%nat -> hex_aux 97 f n [] = hex_aux 97 g n [].
Proof.
  induction f as [ | f IH ]; intros g n Hf Hg; [ lia | ]. destruct g as [ | g ]; [ lia | ]. cbn [hex_aux]. destruct (N.eqb_spec (n / 16) 0) as [ | E ]; auto.
  pose proof (log2_div16 n E). rewrite hex_aux_acc, (hex_aux_acc g). f_equal. apply IH; lia.
Qed.
Lemma hex_eq n : hex n = (if n / 16 =? 0 then [] else hex (n / 16)) ++ [hex_digit 97 (n mod 16)].
Proof.
  unfold hex at 1. cbn [hex_aux]. destruct (N.eqb_spec (n / 16) 0) as [ | E ]; auto. rewrite hex_aux_acc. f_equal. unfold hex. apply hex_aux_fuel; [ | lia ].
  now apply log2_div16.
Qed.
Lemma hex_ind (P : N -> Prop) : (forall n, (n / 16 = 0 -> P n)) -> (forall n, n / 16 <> 0 -> P (n / 16) -> P n) -> forall n, P n.
Proof.
  intros H0 H1 n. induction n using (well_founded_induction N.lt_wf_0). destruct (N.eq_dec (n / 16) 0); auto. apply H1; auto. apply H. lia.
Qed.
Lemma hex_value_snoc ds x : hex_value (ds ++ [x]) = 16 * hex_value ds + hex_digit_value x.
Proof.
  induction ds as [ | d ds IH ]; cbn [app hex_value List.length].
  - change (16 ^ N.of_nat 0) with 1. lia.
  - rewrite IH, app_length. cbn [List.length]. replace (N.of_nat (List.length ds + 1)) with (N.succ (N.of_nat (List.length ds))) by lia. rewrite N.pow_succ_r'. lia.
Qed.
Lemma digit_value d : d < 16 -> hex_digit_value (hex_digit 97 d) = d.
Proof. intros H. unfold hex_digit, hex_digit_value. destruct (N.ltb_spec d 10); [ replace (48 + d <? 58) with true by lia | replace (97 + (d - 10) <? 58) with false by lia ]; lia. Qed.
Lemma digit_form d : d < 16 -> 48 <= hex_digit 97 d <= 57 \/ 97 <= hex_digit 97 d <= 102.
Proof. intros H. unfold hex_digit. destruct (N.ltb_spec d 10); lia. Qed.
Lemma hex_head n : n <> 0 -> exists d r, hex n = d :: r /\ d <> 48.
Proof.
  induction n as [ n H | n H IH ] using hex_ind; intros Hn; rewrite hex_eq.
  - rewrite H. cbn [N.eqb app]. do 2 eexists. split; [ reflexivity | ]. unfold hex_digit. destruct (N.ltb_spec (n mod 16) 10); lia.
  - replace (n / 16 =? 0) with false by lia. destruct (IH H) as (d & r & -> & Hd). do 2 eexists. split; [ reflexivity | exact Hd ].
Qed.
Lemma hex_shortest n : hex_numeral (hex n) n.
Proof.
  split; [ | split ].
  - induction n as [ n H | n H IH ] using hex_ind; rewrite hex_eq.
    + rewrite H. cbn [N.eqb app]. constructor; [ | constructor ]. apply digit_form. lia.
    + replace (n / 16 =? 0) with false by lia. apply Forall_app. split; auto. constructor; [ | constructor ]. apply digit_form. lia.
  - induction n as [ n H | n H IH ] using hex_ind; rewrite hex_eq, hex_value_snoc, digit_value by lia.
    + rewrite H. cbn [N.eqb hex_value]. lia.
    + replace (n / 16 =? 0) with false by lia. rewrite IH. lia.
  - destruct (N.eq_dec n 0) as [ -> | Hn ]; [ left; reflexivity | right; now apply hex_head ].
Qed.
Lemma digit_back x : 48 <= x <= 57 \/ 97 <= x <= 102 -> hex_digit 97 (hex_digit_value x) = x /\ hex_digit_value x < 16 /\ (x <> 48 -> hex_digit_value x <> 0).
Proof.
  intros H. unfold hex_digit, hex_digit_value. destruct (N.ltb_spec x 58); [ replace (x - 48 <? 10) with true by lia | replace (x - 87 <? 10) with false by lia ]; lia.
Qed.
Lemma hex_unique ds n : hex_numeral ds n -> ds = hex n.
Proof.
  intros (Hd & Hv & Hz). revert n Hv Hz. induction ds as [ | x ds IH ] using rev_ind; intros n Hv Hz.
  { destruct Hz as [ E | (d & r & E & _) ]; discriminate. }
  apply Forall_app in Hd as (Hd & Hx). apply Forall_inv in Hx. rewrite hex_value_snoc in Hv. rewrite hex_eq. destruct (digit_back x Hx) as (Ex & Hlt & Hnz).
  destruct ds as [ | d ds ].
  - cbn [hex_value] in Hv. replace (n / 16) with 0 by (symmetry; apply N.div_small; lia). cbn [N.eqb app]. f_equal. rewrite N.mod_small by lia. now replace n with (hex_digit_value x) by lia.
  - assert (Hd48 : d <> 48).
    { destruct Hz as [ E | (d' & r' & E & Hne) ]; [ destruct ds; discriminate | ]. cbn [app] in E. congruence. }
    assert (Hq : n / 16 = hex_value (d :: ds)) by (symmetry; apply (N.div_unique _ _ _ (hex_digit_value x)); lia).
    assert (Hm : n mod 16 = hex_digit_value x) by (symmetry; apply (N.mod_unique _ _ (hex_value (d :: ds))); lia).
    rewrite Hq, Hm, Ex. assert (Hpos : hex_value (d :: ds) <> 0).
    { pose proof (Forall_inv Hd) as Hdd. destruct (digit_back d Hdd) as (_ & _ & Hn). specialize (Hn Hd48). cbn [hex_value].
      pose proof (N.pow_nonzero 16 (N.of_nat (List.length ds)) ltac:(discriminate)) as Hp. intros E. apply N.eq_add_0 in E as (E & _). apply N.eq_mul_0 in E. lia. }
    replace (hex_value (d :: ds) =? 0) with false by lia. rewrite <- (IH Hd (hex_value (d :: ds)) eq_refl); [ reflexivity | ]. right. now exists d, ds.
Qed.
Lemma hex_exact ds n : ds = hex n <-> hex_numeral ds n.
Proof. split; [ intros ->; apply hex_shortest | apply hex_unique ]. Qed.
Lemma shown_exact t w : w = type_str_display t <-> shown t w.
Proof. split; [ intros ->; apply shown_display | apply shown_unique ]. Qed.

(** * Writing *)
Lemma wseq_err a b pre e : wseq a b = (pre, Err e) <-> a = (pre, Err e) \/ exists p q, a = (p, Ok tt) /\ b = (q, Err e) /\ pre = p ++ q.
Proof.
  destruct a as (p & [ [] | e' | ]), b as (q & r); cbn; (split; [ intros H | intros [ H | (p' & q' & H1 & H2 & H3) ] ]); try discriminate; auto.
  - injection H as <- ->. right. exists p, q. auto.
  - injection H1 as ->. injection H2 as -> ->. now subst.
Qed.
Lemma wseq_ok a b out : wseq a b = (out, Ok tt) <-> exists p q, a = (p, Ok tt) /\ b = (q, Ok tt) /\ out = p ++ q.
Proof.
  destruct a as (p & [ [] | e' | ]), b as (q & r); cbn; (split; [ intros H | intros (p' & q' & H1 & H2 & H3) ]); try discriminate; auto.
  - injection H as <- ->. exists p, q. auto.
  - injection H1 as ->. injection H2 as -> ->. now subst.
Qed.
Lemma units_err c ts g l pre e : ts_endianness ts <> Irrelevant -> Forall (fun u => u < 2 ^ 32) l ->
  write_units c (swap_for c ts) g l = (pre, Err e) <->
  exists before u after, l = before ++ u :: after /\ Forall (fun u => g u = true) before /\ g u = false /\ pre = utf32 (ts_endianness ts) before /\ e = out_of_range u.
Proof.
  intros He Hl. revert pre. induction Hl as [ | u l Hu Hl IH ]; intros pre; cbn [write_units].
  - split; [ discriminate | ]. intros ([ | ] & ? & ? & E & _); discriminate.
  - destruct (g u) eqn:Eg.
    + rewrite wseq_err, write_bits_number by (congruence || exact Hu). split.
      * intros [ H | (p & q & H1 & H2 & ->) ]; [ discriminate | ]. injection H1 as <-. apply IH in H2 as (before & u' & after & -> & H1 & H2 & -> & ->).
        exists (u :: before), u', after. auto 6.
      * intros (before & u' & after & E & H1 & H2 & -> & ->). right. destruct before as [ | u0 before ]; cbn [app] in E; injection E as <- ->; [ congruence | ].
        apply Forall_cons_iff in H1 as (_ & H1). do 2 eexists. split; [ reflexivity | ]. split; [ apply IH; eauto 8 | reflexivity ].
    + split.
      * intros H. injection H as <- <-. exists [], u, l. auto 6.
      * intros (before & u' & after & E & H1 & H2 & -> & ->). destruct before as [ | u0 before ]; cbn [app] in E; injection E as <- ->; [ reflexivity | ].
        apply Forall_cons_iff in H1 as (H1 & _). congruence.
Qed.
Lemma units_no_err c ts l pre e : ts_endianness ts <> Irrelevant -> Forall (fun u => u < 2 ^ 32) l -> write_units c (swap_for c ts) (fun _ => true) l <> (pre, Err e).
Proof. intros He Hl H. apply units_err in H as (? & ? & ? & _ & _ & H & _); auto. discriminate. Qed.
Lemma takeN_cons_pos {A} n (x : A) l : n <> 0 -> takeN n (x :: l) = x :: takeN (n - 1) l.
Proof. intros H. unfold takeN. replace (N.to_nat n) with (S (N.to_nat (n - 1))) by lia. reflexivity. Qed.
Lemma str32_err c ts err l : ts_endianness ts <> Irrelevant -> Forall (fun u => u < 2 ^ 32) l -> forall m pre e,
  write_str32 c (swap_for c ts) err l m = (pre, Err e) <-> m < lenN l /\ pre = utf32 (ts_endianness ts) (takeN m l) /\ e = err.
Proof.
  intros He. induction 1 as [ | u l Hu Hl IH ]; intros m pre e; cbn [write_str32].
  - split; [ intros H; apply units_no_err in H; auto using zeros_u32; contradiction | ]. intros (H & _). cbn in H. lia.
  - rewrite lenN_cons. destruct (N.eqb_spec m 0) as [ -> | Hm ].
    + split; [ intros H; injection H as <- <-; split; [ lia | auto ] | intros (_ & -> & ->); reflexivity ].
    + rewrite wseq_err, write_bits_number, (takeN_cons_pos m) by (congruence || exact Hu || exact Hm). split.
      * intros [ H | (p & q & H1 & H2 & ->) ]; [ discriminate | ]. injection H1 as <-. apply IH in H2 as (H2 & -> & ->). split; [ lia | auto ].
      * intros (H & -> & ->). right. do 2 eexists. split; [ reflexivity | ]. split; [ apply IH; split; [ lia | auto ] | reflexivity ].
Qed.
Lemma zeros_no_err c n pre e : wzeros c n <> (pre, Err e).
Proof. unfold wzeros. destruct (isize_max c <? n); discriminate. Qed.

Ltac texts := repeat match goal with
  | H : shortest_numeral _ _ |- _ => apply decimal_exact in H; subst
  | H : hex_numeral _ _ |- _ => apply hex_exact in H; subst
  | H : shown _ _ |- _ => apply shown_exact in H; subst
  end.
Ltac no_kind := match goal with
  | H : byte_vector _ |- _ => destruct H as [ H | (? & H) ]; discriminate H
  | H : unit_vector _ |- _ => destruct H as [ H | (? & H) ]; discriminate H
  | H : char_vector _ |- _ => destruct H as [ H | (? & H) ]; discriminate H
  | H : string_type _ |- _ => destruct H as [ H | (? & H) ]; discriminate H
  | H : unit_vector _ \/ char_vector _ |- _ => destruct H as [ [ H | (? & H) ] | [ H | (? & H) ] ]; discriminate H
  end.

Lemma bytes_fault c t ts bs pre e : byte_vector t -> ts_char ts = TByteStr \/ ts_char ts = TRawData -> let is_bs := match ts_char ts with TByteStr => true | _ => false end in
  write_one c (WrBytes ts (ts_size ts) is_bs) (XBytes bs) = (pre, Err e) <-> exists msg, e = EData msg /\ unstorable t (DPlain ts) (XBytes bs) pre msg.
Proof.
  intros Ht Hc is_bs. cbn [write_one]. split.
  - intros H. destruct ((ts_size ts <? lenN bs) || ((lenN bs <? ts_size ts) && negb is_bs)) eqn:E.
    + injection H as <- <-. eexists. split; [ reflexivity | ]. apply bytes_count; [ auto | | now apply decimal_exact | now apply shown_exact ].
      unfold is_bs in E. destruct Hc as [ Hc | Hc ]; rewrite Hc in *; cbn [negb] in E; [ left; split; auto; lia | right; split; [ discriminate | lia ] ].
    + apply wseq_err in H as [ H | (p & q & _ & H & _) ]; [ discriminate | ]. destruct is_bs; [ now apply zeros_no_err in H | discriminate ].
  - intros (msg & -> & H). inversion H; subst; try no_kind. texts.
    replace ((ts_size ts <? lenN bs) || ((lenN bs <? ts_size ts) && negb is_bs)) with true; [ reflexivity | ]. unfold is_bs.
    destruct Hc as [ Hc | Hc ]; rewrite Hc in *; cbn [negb]; match goal with K : _ \/ _ |- _ => destruct K as [ (? & ?) | (? & ?) ] end; try congruence; lia.
Qed.
Lemma units_fault c t ts us pre e : unit_vector t -> ts_endianness ts <> Irrelevant -> Forall (fun u => u < 2 ^ 32) us ->
  write_one c (WrU32s ts (ts_size ts) (swap_for c ts)) (XUnits us) = (pre, Err e) <-> exists msg, e = EData msg /\ unstorable t (DPlain ts) (XUnits us) pre msg.
Proof.
  intros Ht He Hu. cbn [write_one]. split.
  - intros H. destruct (N.ltb_spec (ts_size ts) (lenN us)) as [ L | L ].
    + injection H as <- <-. eexists. split; [ reflexivity | ]. apply units_count; [ auto | auto | now apply decimal_exact | now apply shown_exact ].
    + apply wseq_err in H as [ H | (p & q & _ & H & _) ]; [ | apply units_no_err in H; auto using zeros_u32; contradiction ].
      apply units_err in H as (before & u & after & -> & H1 & H2 & -> & ->); auto. eexists. split; [ reflexivity | ].
      apply units_value; auto; [ | lia | now apply hex_exact ]. eapply Forall_impl; [ | exact H1 ]. cbv beta. intros a. lia.
  - intros (msg & -> & H). inversion H; subst; try no_kind.
    + texts. now replace (ts_size ts <? lenN us) with true by lia.
    + texts. replace (ts_size ts <? lenN (before ++ u :: after)) with false by lia. apply wseq_err. left.
      apply units_err; auto. exists before, u, after. split; auto. split; [ | split; [ lia | auto ] ]. match goal with K : Forall _ before |- _ => eapply Forall_impl; [ | exact K ] end. cbv beta. intros a. lia.
Qed.
Lemma chars_fault c t ts us pre e : char_vector t -> ts_endianness ts <> Irrelevant -> Forall (fun u => u < 2 ^ 32) us ->
  write_one c (WrChars ts (ts_size ts) (swap_for c ts)) (XUnits us) = (pre, Err e) <-> exists msg, e = EData msg /\ unstorable t (DPlain ts) (XUnits us) pre msg.
Proof.
  intros Ht He Hu. cbn [write_one]. split.
  - intros H. destruct (N.ltb_spec (ts_size ts) (lenN us)) as [ L | L ].
    + injection H as <- <-. eexists. split; [ reflexivity | ]. apply units_count; [ auto | auto | now apply decimal_exact | now apply shown_exact ].
    + apply wseq_err in H as [ H | (p & q & _ & H & _) ]; apply units_no_err in H; auto using zeros_u32; contradiction.
  - intros (msg & -> & H). inversion H; subst; try no_kind.
    + texts. now replace (ts_size ts <? lenN us) with true by lia.
    + exfalso. destruct Ht as [ -> | (? & ->) ]; no_kind.
Qed.
Lemma str32_fault c t ts s pre e : string_type t -> ts_char ts = TUnicodeStr -> ts_endianness ts <> Irrelevant -> Forall (fun u => is_scalar u = true) s ->
  write_one c (WrStr32 ts (ts_size ts) (swap_for c ts)) (XStr s) = (pre, Err e) <-> exists msg, e = EData msg /\ unstorable t (DPlain ts) (XStr s) pre msg.
Proof.
  intros Ht Hc He Hu. cbn [write_one]. rewrite str32_err by auto using scalars_u32. split.
  - intros (L & -> & ->). eexists. split; [ reflexivity | ]. apply string_units; [ auto | auto | auto | now apply decimal_exact | now apply shown_exact ].
  - intros (msg & -> & H). inversion H; subst; try no_kind; [ | contradiction ]. texts. auto.
Qed.
Lemma str8_fault c t ts s pre e : string_type t -> ts_char ts = TByteStr ->
  write_one c (WrStr8 ts (ts_size ts)) (XStr s) = (pre, Err e) <-> exists msg, e = EData msg /\ unstorable t (DPlain ts) (XStr s) pre msg.
Proof.
  intros Ht Hc. cbn [write_one]. change utf8 with utf8_string. split.
  - intros H. destruct (N.ltb_spec (ts_size ts) (lenN (utf8_string s))) as [ L | L ].
    + injection H as <- <-. eexists. split; [ reflexivity | ]. apply string_bytes; [ auto | congruence | auto | now apply decimal_exact | now apply shown_exact ].
    + apply wseq_err in H as [ H | (p & q & _ & H & _) ]; [ discriminate | ]. destruct (_ <? _); [ now apply zeros_no_err in H | discriminate ].
  - intros (msg & -> & H). inversion H; subst; try no_kind; [ congruence | ]. texts.
    now replace (ts_size ts <? lenN (utf8_string s)) with true by lia.
Qed.

Definition write_fault (c : cfg) (t : rty) (d : dtype) : Prop := forall w v, writer c t d = DOk w -> has_type t v -> forall pre e,
  (write_one c w v = (pre, Err e) -> exists msg, e = EData msg /\ unstorable t d v pre msg)
  /\ (strings_fit (c_usize_max c) d -> forall msg, unstorable t d v pre msg -> write_one c w v = (pre, Err (EData msg))).

Lemma scalar_fault c t d : wf_dtype d -> (forall n t', t <> RArray n t') -> (forall fs, t <> RStruct fs) -> write_fault c t d.
Proof.
  intros Hw Ha Hs w v Hr Hv pre e.
  assert (Q : forall X : err -> Prop, (forall e, write_one c w v = (pre, Err e) <-> exists msg, e = EData msg /\ unstorable t d v pre msg) ->
    (write_one c w v = (pre, Err e) -> exists msg, e = EData msg /\ unstorable t d v pre msg)
    /\ (strings_fit (c_usize_max c) d -> forall msg, unstorable t d v pre msg -> write_one c w v = (pre, Err (EData msg)))).
  { intros _ H. split; [ apply H | intros _ msg Hm; apply H; eauto ]. }
  assert (N : (exists bs, write_one c w v = (bs, Ok tt)) -> (forall msg, ~ unstorable t d v pre msg) -> forall e, write_one c w v = (pre, Err e) <-> exists msg, e = EData msg /\ unstorable t d v pre msg).
  { intros (bs & H) Hn e'. rewrite H. split; [ discriminate | intros (msg & _ & Hm); now apply Hn in Hm ]. }
  apply Q; [ exact (fun _ => True) | ]. clear Q e.
  destruct t; try (now destruct (Ha _ _ eq_refl)); try (now destruct (Hs _ eq_refl)); cbn [writer] in Hr;
    destruct v; try (now destruct Hv); cbn [has_type] in Hv.
  1, 2, 3, 4, 6: apply N; [ | intros msg H; inversion H; subst; no_kind ].
  - apply dbind_ok in Hr as (sw & H & [= <-]). eexists. reflexivity.
  - apply dbind_ok in Hr as (sw & H & [= <-]). eexists. reflexivity.
  - apply dbind_ok in Hr as (sw & H & [= <-]). eexists. reflexivity.
  - apply dbind_ok in Hr as (sw & H & [= <-]). eexists. reflexivity.
  - apply dbind_ok in Hr as ([] & H & [= <-]). eexists. reflexivity.
  - apply dbind_ok in Hr as (i & H & [= <-]). apply byte_vec_ok in H as (ts & -> & Hm & H). intros e.
    assert (byte_vector RVecU8) as B by now left. destruct H as [ (Hc & ->) | (Hc & ->) ]; cbn [fst snd];
      (pose proof (bytes_fault c RVecU8 ts bs pre e B ltac:(auto)) as F; cbv zeta in F; rewrite Hc in F; exact F).
  - apply dbind_ok in Hr as (i & H & [= <-]). apply arr_byte_vec_ok in H as (ts & -> & Hm & H). intros e.
    assert (byte_vector (RArrU8 n)) as B by (right; eauto). destruct H as [ (Hc & ->) | (Hc & Hn & ->) ]; cbn [fst snd];
      (pose proof (bytes_fault c (RArrU8 n) ts bs pre e B ltac:(auto)) as F; cbv zeta in F; rewrite Hc in F; exact F).
  - apply dbind_ok in Hr as (p & H & [= <-]). apply unicode_ok in H as (ts & -> & Hm & Hc & ->). cbn [fst snd].
    cbn [wf_dtype] in Hw. pose proof (legal_irrelevant ts Hw) as Hi. rewrite Hc in Hi. intros e. apply units_fault; [ now left | exact Hi | auto ].
  - apply dbind_ok in Hr as (p & H & [= <-]). apply unicode_ok in H as (ts & -> & Hm & Hc & ->). cbn [fst snd].
    cbn [wf_dtype] in Hw. pose proof (legal_irrelevant ts Hw) as Hi. rewrite Hc in Hi. intros e. apply chars_fault; [ now left | exact Hi | now apply scalars_u32 ].
  - apply str_writer_ok in Hr as (ts & -> & Hm & [ (Hc & ->) | (Hc & ->) ]); intros e.
    + cbn [wf_dtype] in Hw. pose proof (legal_irrelevant ts Hw) as Hi. rewrite Hc in Hi. apply str32_fault; auto. now left.
    + apply str8_fault; auto. now left.
  - apply dbind_ok in Hr as (p & H & [= <-]). apply unicode_ok in H as (ts & -> & Hm & Hc & ->). cbn [fst snd].
    cbn [wf_dtype] in Hw. pose proof (legal_irrelevant ts Hw) as Hi. rewrite Hc in Hi. intros e. apply units_fault; [ right; eauto | exact Hi | tauto ].
  - apply dbind_ok in Hr as (p & H & [= <-]). apply unicode_ok in H as (ts & -> & Hm & Hc & ->). cbn [fst snd].
    cbn [wf_dtype] in Hw. pose proof (legal_irrelevant ts Hw) as Hi. rewrite Hc in Hi. intros e. apply chars_fault; [ right; eauto | exact Hi | now apply scalars_u32 ].
  - apply str_writer_ok in Hr as (ts & -> & Hm & [ (Hc & ->) | (Hc & ->) ]); intros e.
    + cbn [wf_dtype] in Hw. pose proof (legal_irrelevant ts Hw) as Hi. rewrite Hc in Hi. apply str32_fault; auto; [ right; eauto | tauto ].
    + apply str8_fault; auto. right; eauto.
Qed.

Lemma written_ok c t d w v bs : wf_dtype d -> writer c t d = DOk w -> has_type t v -> write_one c w v = (bs, Ok tt) -> encode t d v = Some bs.
Proof.
  intros Hw Hr Hv H. destruct (writes_all c t d Hw w Hr v Hv) as [ (_ & pre & E) | E ]; [ congruence | ]. destruct (encode t d v); [ congruence | ]. destruct E as (? & ? & E). congruence.
Qed.
Lemma writes_ok c t d w v bs : wf_dtype d -> strings_fit (c_usize_max c) d -> writer c t d = DOk w -> has_type t v -> encode t d v = Some bs -> write_one c w v = (bs, Ok tt).
Proof.
  intros Hw Hf Hr Hv H. destruct (writes_all c t d Hw w Hr v Hv) as [ (Hn & _) | E ]; [ contradiction | ]. now rewrite H in E.
Qed.

Lemma array_fault c n t d : wf_dtype d -> (forall d, wf_dtype d -> write_fault c t d) -> write_fault c (RArray n t) d.
Proof.
  intros Hw IH w v Hr Hv pre e. cbn [writer] in Hr. apply dbind_ok in Hr as (ty & Hty & H). apply array_inner_ok in Hty as ->.
  apply dbind_ok in H as (w' & Hr & [= <-]). destruct Hw as (Hn & Hw). destruct v as [ | | | | | | | l | ]; try (now destruct Hv).
  cbn [has_type] in Hv. destruct Hv as (_ & Hv). cbn [write_one]. split.
  - revert pre. induction Hv as [ | x l Hx Hl IHl ]; cbn [fold_right]; intros pre H; [ discriminate | ].
    apply wseq_err in H as [ H | (p & q & H1 & H2 & ->) ].
    + destruct (IH ty Hw w' x Hr Hx pre e) as (F & _). destruct (F H) as (msg & -> & F'). exists msg. split; auto. apply (element n t n ty [] x l [] pre msg); auto.
    + destruct (IHl _ H2) as (msg & -> & F). exists msg. split; auto. apply written_ok with (t := t) (d := ty) in H1; auto.
      inversion F as [ | | | | | ? ? ? ? before y after bs out ? Eb Fy | ]; subst. rewrite app_assoc. apply (element n t n ty (x :: before) y after (p ++ bs) out msg); auto.
      rewrite encode_array in *. cbn [encode_seq]. fold (encode_seq t ty). now rewrite H1, Eb.
  - intros Hf msg F. inversion F as [ | | | | | ? ? ? ? before y after bs out ? Eb Fy | ]; subst. clear F. rewrite encode_array in Eb. cbn [strings_fit] in Hf. revert bs Eb.
    induction before as [ | x before IHb ]; cbn [app fold_right encode_seq] in *; intros bs Eb; apply Forall_cons_iff in Hv as (Hx & Hv).
    + injection Eb as <-. apply wseq_err. left. now apply (IH ty Hw w' y Hr Hx out e).
    + fold (encode_seq t ty) in Eb. destruct (encode t ty x) as [ p | ] eqn:Ex; [ | discriminate ]. destruct (encode_seq t ty before) as [ q | ]; [ | discriminate ]. injection Eb as <-.
      apply wseq_err. right. exists p, (q ++ out). split; [ eapply writes_ok; eauto | ]. split; [ now apply IHb | now rewrite app_assoc ].
Qed.

Lemma fields_fault c fs : Forall (fun f => forall d, wf_dtype d -> write_fault c (snd f) d) fs ->
  forall ds ws l, map fst ds = map fst fs -> Forall (fun f => wf_dtype (snd f)) ds -> writers c fs (map snd ds) = DOk ws -> has_types fs l -> forall pre e,
  (write_fields c ws l = (pre, Err e) -> exists msg, e = EData msg /\ unstorable (RStruct fs) (DRecord ds) (XRec l) pre msg)
  /\ (strings_fit_fields (c_usize_max c) ds -> forall msg, unstorable (RStruct fs) (DRecord ds) (XRec l) pre msg -> write_fields c ws l = (pre, Err (EData msg))).
Proof.
  induction 1 as [ | (name, t) fs Hf Hfs IH ]; intros [ | (name', d) ds ] ws l Hn Hw Hr Hl pre e; try discriminate Hn; cbn [map fst snd] in *.
  - injection Hr as <-. destruct l; [ | destruct Hl ]. split; [ discriminate | ]. intros _ msg F. inversion F as [ | | | | | | fs1 ? ? ? ? ? ? ? ? ? ? ? ? ? ? ? E ]. destruct fs1; discriminate.
  - injection Hn as -> Hn. apply Forall_cons_iff in Hw as (Hw & Hws). cbn [snd] in Hw. destruct l as [ | x l ]; [ destruct Hl | ].
    cbn [has_types] in Hl. fold has_types in Hl. destruct Hl as (Hx & Hl).
    cbn [writers] in Hr. fold (writers c) in Hr. apply dbind_ok in Hr as (r & Hr & H). apply dbind_ok in H as (rs' & Hrs & H). injection H as <-.
    cbn [write_fields strings_fit_fields] in *. fold (write_fields c). split.
    + intros H. apply wseq_err in H as [ H | (p & q & H1 & H2 & ->) ].
      * destruct (Hf d Hw r x Hr Hx pre e) as (F & _). destruct (F H) as (msg & -> & F'). exists msg. split; auto. apply (member [] name t fs [] name d ds [] x l [] pre msg); auto.
      * destruct (IH ds rs' l Hn Hws Hrs Hl q e) as (F & _). destruct (F H2) as (msg & -> & F'). exists msg. split; auto. apply written_ok with (t := t) (d := d) in H1; auto.
        inversion F' as [ | | | | | | fs1 n1 t1 fs2 ds1 n2 d1 ds2 before y after bs out ? Eb Fy ]; subst. rewrite app_assoc.
        apply (member ((name, t) :: fs1) n1 t1 fs2 ((name, d) :: ds1) n2 d1 ds2 (x :: before) y after (p ++ bs) out msg); auto.
        rewrite encode_struct in *. cbn [encode_fields]. fold encode_fields. now rewrite H1, Eb.
    + intros (Hf1 & Hf2) msg F. inversion F as [ | | | | | | fs1 n1 t1 fs2 ds1 n2 d1 ds2 before y after bs out ? Eb Fy E1 E2 E3 ]; subst.
      rewrite encode_struct in Eb. destruct fs1 as [ | (name1, t0) fs1 ], ds1 as [ | (name2, d0) ds1 ], before as [ | x0 before ]; cbn [encode_fields] in Eb; try discriminate Eb;
        cbn [app] in *.
      * injection E1; injection E2; injection E3; injection Eb; intros; subst. apply wseq_err. left. now apply (Hf _ Hw r _ Hr Hx out e).
      * fold encode_fields in Eb. injection E1; injection E2; injection E3; intros; subst.
        match type of Eb with context [encode ?a ?b ?x] => destruct (encode a b x) as [ p | ] eqn:Ex end; [ | discriminate ]. destruct (encode_fields fs1 ds1 before) as [ q | ] eqn:Eq; [ | discriminate ]. injection Eb as <-.
        apply wseq_err. right. exists p, (q ++ out). split; [ eapply writes_ok; eauto | ]. split; [ | now rewrite app_assoc ].
        apply (IH _ rs' _ Hn Hws Hrs Hl (q ++ out) e); auto. apply member; auto.
Qed.

Lemma write_fault_all c t : forall d, wf_dtype d -> write_fault c t d.
Proof.
  induction t as [ t Ha Hs | n t IH | fs IH ] using rty_rect'; intros d Hw.
  - now apply scalar_fault.
  - now apply array_fault.
  - intros w v Hr Hv pre e. rewrite writer_struct in Hr. apply dbind_ok in Hr as (dts & Hd & H). apply extract_ok in Hd as (ds & -> & Hn & ->).
    apply dbind_ok in H as (ws & Hws & [= <-]). destruct v; try (now destruct Hv). rewrite has_type_struct in Hv.
    rewrite write_one_struct, strings_fit_record. eapply fields_fault; eauto.
    rewrite wf_record in Hw. eapply Forall_impl; [ | exact Hw ]. cbv beta. tauto.
Qed.
Lemma unstorable_exact c t d w v out e : wf_dtype d -> strings_fit (c_usize_max c) d -> writer c t d = DOk w -> has_type t v ->
  write_one c w v = (out, Err e) <-> exists msg, e = EData msg /\ unstorable t d v out msg.
Proof.
  intros Hw Hf Hr Hv. destruct (write_fault_all c t d Hw w v Hr Hv out e) as (F & G). split; [ exact F | ]. intros (msg & -> & H). now apply G.
Qed.
Lemma unstorable_sound c t d w v out e : wf_dtype d -> writer c t d = DOk w -> has_type t v ->
  write_one c w v = (out, Err e) -> exists msg, e = EData msg /\ unstorable t d v out msg.
Proof. intros Hw Hr Hv. apply (write_fault_all c t d Hw w v Hr Hv out e). Qed.

(** * Reading *)
(** [p] reads [n] bytes and gives the value of [f]; [F bs msg]: it stops after [bs] saying [msg]; a panic only if [P]. *)
Definition faults {A} (P : Prop) (p : rprog A) (n : N) (f : bytes -> option A) (F : bytes -> text -> Prop) : Prop :=
  reads P p n f /\
  forall input, bytes_ok input ->
  match run p input with
  | (Ok a, rest) => exists bs, input = bs ++ rest /\ lenN bs = n /\ f bs = Some a
  | (Err e, rest) => (e = EUnexpectedEof /\ lenN input < n /\ rest = []) \/ exists bs msg, e = EData msg /\ input = bs ++ rest /\ F bs msg
  | (Panic, _) => P
  end
  /\ forall bs msg rest, input = bs ++ rest -> F bs msg -> ~ P -> run p input = (Err (EData msg), rest).

Lemma faults_iff {A} P (p : rprog A) n f F G : (forall bs msg, bytes_ok bs -> F bs msg <-> G bs msg) -> faults P p n f F -> faults P p n f G.
Proof.
  intros E (R & H). split; [ exact R | ]. intros input Hb. destruct (H input Hb) as (H1 & H2). split.
  - destruct (run p input) as ([ a | e | ], rest); auto. destruct H1 as [ H1 | (bs & msg & -> & Hi & H1) ]; [ now left | right ]. exists bs, msg. split; auto. split; auto.
    apply E; auto. rewrite Hi in Hb. now apply Forall_app in Hb.
  - intros bs msg rest -> Hg. apply (H2 bs msg rest eq_refl). apply E; auto. now apply Forall_app in Hb.
Qed.
Lemma faults_ext {A} P (p q : rprog A) n f F : (forall input, run p input = run q input) -> faults P p n f F -> faults P q n f F.
Proof.
  intros E (R & H). split; [ intros bs rest Hl Hb; rewrite <- !E; now apply R | ]. intros input Hb. rewrite <- E. now apply H.
Qed.
(** Successful reading takes the bytes of one item, whatever follows. *)
Lemma reads_ok {A} P (p : rprog A) n f input a rest : reads P p n f -> bytes_ok input -> run p input = (Ok a, rest) ->
  exists bs, input = bs ++ rest /\ lenN bs = n /\ f bs = Some a.
Proof.
  intros H Hi E. destruct (N.le_gt_cases n (lenN input)) as [ Hl | Hl ].
  - specialize (H (takeN n input) (dropN n input)). rewrite takeN_dropN, lenN_takeN in H. specialize (H ltac:(lia) (Forall_takeN _ _ _ Hi)). rewrite E in H.
    destruct H as [ (_ & rest' & H) | H ]; [ discriminate H | ]. destruct (f (takeN n input)) as [ v | ] eqn:Ef; [ | destruct H as (? & ? & H); discriminate H ].
    apply pair_inj in H as (H & ->). apply Ok_inj in H as ->. exists (takeN n input). rewrite takeN_dropN, lenN_takeN. repeat split; auto. lia.
  - exfalso. set (more := repeatN 0 (n - lenN input)).
    specialize (H (input ++ more) []). rewrite app_nil_r in H.
    assert (Hm : bytes_ok (input ++ more)) by (apply Forall_app; split; auto; now apply Forall_repeatN).
    assert (Hlm : lenN (input ++ more) = n) by (unfold more; rewrite lenN_app, lenN_repeatN; lia).
    specialize (H Hlm Hm). pose proof (run_prefix p input more) as Q. rewrite E in Q. rewrite Q in H.
    destruct H as [ (_ & rest' & H) | H ]; [ discriminate | ]. destruct (f (input ++ more)); [ | destruct H as (? & ? & H); discriminate H ].
    apply (f_equal snd) in H. cbn [snd] in H. apply app_eq_nil in H as (_ & H). apply (f_equal lenN) in H. unfold more in H. rewrite lenN_repeatN, lenN_nil in H. lia.
Qed.
Lemma faults_value {A} P (p : rprog A) n f g F : reads P p n g -> faults P p n f F -> faults P p n g F.
Proof.
  intros R' (R & H). split; [ exact R' | ]. intros input Hb. destruct (H input Hb) as (H1 & H2). split; auto.
  destruct (run p input) as ([ a | e | ], rest) eqn:E; auto. eapply reads_ok; eauto.
Qed.
Lemma faults_weaken {A} (P Q : Prop) (p : rprog A) n f F : (P -> Q) -> faults P p n f F -> faults Q p n f F.
Proof.
  intros E (R & H). split; [ eapply reads_weaken; eauto | ]. intros input Hb. destruct (H input Hb) as (H1 & H2). split.
  - destruct (run p input) as ([ a | e | ], rest); auto.
  - intros bs msg rest Hi Hf Hq. apply H2 with (bs := bs); auto.
Qed.

Definition none : bytes -> text -> Prop := fun _ _ => False.
Lemma faults_exact P n : faults P (read_exact n) n Some none.
Proof.
  split; [ apply reads_exact | ]. intros input Hb. split; [ | intros ? ? ? ? [] ]. unfold read_exact. cbn [run]. destruct (N.leb_spec n (lenN input)).
  - exists (takeN n input). split; [ symmetry; apply takeN_dropN | ]. split; auto. rewrite lenN_takeN. lia.
  - left. auto.
Qed.
Lemma faults_vec (P : Prop) c n : (isize_max c < n -> P) -> faults P (read_vec c n) n Some none.
Proof.
  intros H. split; [ now apply reads_vec | ]. intros input Hb. unfold read_vec. destruct (N.ltb_spec (isize_max c) n); [ split; [ cbn [run]; auto | intros ? ? ? ? [] ] | ]. now apply faults_exact.
Qed.
Lemma faults_map {A B} P (p : rprog A) (h : A -> B) n f F : faults P p n f F -> faults P (let! x := p in RRet (h x)) n (fun bs => omap h (f bs)) F.
Proof.
  intros (R & H). split; [ now apply reads_map | ]. intros input Hb. destruct (H input Hb) as (H1 & H2). rewrite run_bind. split.
  - destruct (run p input) as ([ a | e | ], rest); cbn [then_ run]; auto. destruct H1 as (bs & -> & Hl & Hf). exists bs. rewrite Hf. auto.
  - intros bs msg rest Hi Hf Hp. now rewrite (H2 bs msg rest Hi Hf Hp).
Qed.
Lemma faults_check {A B} P (p : rprog A) (k : A -> rprog B) n f (g : A -> option B) (m : A -> text) :
  faults P p n f none -> (forall a, match g a with Some b => k a = RRet b | None => k a = RErr (EData (m a)) end) ->
  faults P (rbind p k) n (fun bs => match f bs with Some a => g a | None => None end) (fun bs msg => lenN bs = n /\ exists a, f bs = Some a /\ g a = None /\ msg = m a).
Proof.
  intros (R & H) Hk. split; [ apply reads_check; auto; intros a; specialize (Hk a); destruct (g a); eauto | ]. intros input Hb. destruct (H input Hb) as (H1 & _). rewrite run_bind. split.
  - destruct (run p input) as ([ a | e | ], rest); cbn [then_]; auto; [ | destruct H1 as [ H1 | (? & ? & _ & _ & []) ]; auto ].
    destruct H1 as (bs & -> & Hl & Hf). specialize (Hk a). destruct (g a) as [ b | ] eqn:Eg; rewrite Hk; cbn [run].
    + exists bs. rewrite Hf. auto.
    + right. exists bs, (m a). eauto 8.
  - intros bs msg rest -> (Hl & a & Hf & Hg & ->) Hp. apply Forall_app in Hb as (Hb & _). destruct (R bs rest Hl Hb) as [ (? & _) | E ]; [ contradiction | ]. rewrite Hf in E. rewrite E. cbn [then_].
    specialize (Hk a). rewrite Hg in Hk. now rewrite Hk.
Qed.
Lemma faults_bind {A B} P (p : rprog A) (k : A -> rprog B) n m f g F G :
  faults P p n f F -> (forall a, faults P (k a) m (g a) (G a)) ->
  faults P (rbind p k) (n + m) (fun bs => match f (takeN n bs) with Some a => g a (dropN n bs) | None => None end)
    (fun bs msg => F bs msg \/ exists b1 b2 a, bs = b1 ++ b2 /\ lenN b1 = n /\ f b1 = Some a /\ G a b2 msg).
Proof.
  intros (R & H) Hk. split; [ apply reads_bind; auto; intros a; apply Hk | ]. intros input Hb. destruct (H input Hb) as (H1 & H2). rewrite run_bind. split.
  - destruct (run p input) as ([ a | e | ], rest); cbn [then_]; auto.
    + destruct H1 as (bs & -> & Hl & Hf). apply Forall_app in Hb as (Hb1 & Hb2). destruct (Hk a) as (_ & K). destruct (K rest Hb2) as (K1 & _).
      destruct (run (k a) rest) as ([ b | e | ], rest'); auto.
      * destruct K1 as (bs' & -> & Hl' & Hg). exists (bs ++ bs'). rewrite <- app_assoc. split; auto. split; [ rewrite lenN_app; lia | ]. now rewrite takeN_app, dropN_app, Hf by auto.
      * destruct K1 as [ (-> & Hs & ->) | (bs' & msg & -> & -> & Hg) ]; [ left; split; auto; split; auto; rewrite lenN_app; lia | ]. right.
        exists (bs ++ bs'), msg. split; auto. split; [ now rewrite app_assoc | ]. right. exists bs, bs', a. auto.
    + destruct H1 as [ (-> & Hs & ->) | (bs & msg & -> & Hi & Hf) ]; [ left; split; auto; split; auto; lia | ]. right. exists bs, msg. auto.
  - intros bs msg rest Hi [ Hf | (b1 & b2 & a & -> & Hl & Hf & Hg) ] Hp; [ now rewrite (H2 bs msg rest Hi Hf Hp) | ].
    subst input. rewrite <- app_assoc in *. apply Forall_app in Hb as (Hb1 & Hb2). destruct (R b1 (b2 ++ rest) Hl Hb1) as [ (? & _) | E ]; [ contradiction | ]. rewrite Hf in E. rewrite E. cbn [then_].
    destruct (Hk a) as (_ & K). now apply (K (b2 ++ rest) Hb2) with (bs := b2).
Qed.
(** After complete pieces of [n] bytes. *)
Definition after_blocks {A} (k : nat) (n : N) (f : bytes -> option A) (F : bytes -> text -> Prop) (bs : bytes) (msg : text) : Prop :=
  exists blocks b, bs = List.concat blocks ++ b /\ (List.length blocks < k)%nat /\ Forall (fun x => lenN x = n /\ exists v, f x = Some v) blocks /\ F b msg.
Lemma faults_replicate {A} P (p : rprog A) n f F k : faults P p n f F ->
  faults P (rreplicate k p) (N.of_nat k * n) (fun bs => all_some (map f (pieces k n bs))) (after_blocks k n f F).
Proof.
  intros Hp. induction k as [ | k IH ].
  - split; [ apply reads_replicate; apply Hp | ]. intros input Hb. split; [ exists []; auto | ]. intros bs msg rest _ (blocks & b & _ & Hl & _). lia.
  - eapply faults_value; [ apply reads_replicate; apply Hp | ].
    replace (N.of_nat (S k) * n) with (n + N.of_nat k * n) by lia. cbn [rreplicate].
    eapply faults_iff; [ | apply faults_bind; [ exact Hp | intros a; apply faults_map; exact IH ] ].
    intros bs msg _. cbv beta. split.
    + intros [ Hf | (b1 & b2 & a & -> & Hl & Hf & blocks & b & -> & Hk & Hbs & Hb) ].
      * exists [], bs. split; [ reflexivity | ]. split; [ cbn; lia | ]. auto.
      * exists (b1 :: blocks), b. cbn [List.concat List.length]. rewrite <- app_assoc. split; auto. split; [ lia | ]. split; auto. constructor; eauto.
    + intros (blocks & b & -> & Hk & Hbs & Hb). destruct blocks as [ | b1 blocks ]; [ now left | ]. right. apply Forall_cons_iff in Hbs as ((Hl & v & Hf) & Hbs).
      exists b1, (List.concat blocks ++ b), v. cbn [List.concat]. rewrite <- app_assoc. split; auto. split; auto. split; auto. exists blocks, b. cbn [List.length] in Hk. split; auto. split; [ lia | auto ].
Qed.

Lemma pieces_blocks n blocks : Forall (fun b => lenN b = n) blocks -> pieces (List.length blocks) n (List.concat blocks) = blocks.
Proof. induction 1 as [ | b l Hb Hl IH ]; [ reflexivity | ]. cbn [List.length pieces List.concat]. now rewrite takeN_app, dropN_app, IH by exact Hb. Qed.
Lemma blocks_pieces k : forall n (bs : bytes), lenN bs = N.of_nat k * n -> List.concat (pieces k n bs) = bs.
Proof.
  induction k as [ | k IH ]; intros n bs Hl; cbn [pieces List.concat].
  - symmetry. apply lenN_0. lia.
  - rewrite IH; [ apply takeN_dropN | ]. rewrite lenN_dropN. lia.
Qed.
Lemma blocks_length k : forall n (bs : bytes), lenN bs = N.of_nat k * n -> Forall (fun b => lenN b = n) (pieces k n bs).
Proof.
  induction k as [ | k IH ]; intros n bs Hl; cbn [pieces]; constructor.
  - rewrite lenN_takeN. lia.
  - apply IH. rewrite lenN_dropN. lia.
Qed.
Lemma lenN_blocks n (blocks : list bytes) : Forall (fun b => lenN b = n) blocks -> lenN (List.concat blocks) = lenN blocks * n.
Proof. induction 1 as [ | b l Hb Hl IH ]; [ reflexivity | ]. cbn [List.concat]. rewrite lenN_app, lenN_cons, IH. lia. Qed.

(** * Code units *)
(** [m] is what is said about a unit that fails the test [g]. *)
Definition bad_unit (e : endianness) (k : N) (g : N -> bool) (m : N -> text) (bs : bytes) (msg : text) : Prop :=
  exists j before piece, bs = before ++ piece /\ j < k /\ lenN before = 4 * j /\ lenN piece = 4 /\
    Forall (fun u => g u = true) (utf32_units e j before) /\ g (number_of e piece) = false /\ msg = m (number_of e piece).
Lemma faults_units P c ts (g : N -> bool) (m : N -> text) p k n : ts_endianness ts <> Irrelevant -> n = 4 * N.of_nat k ->
  p = (let! u := read_bits c 4 (swap_for c ts) in if g u then RRet u else RErr (EData (m u))) ->
  faults P (rreplicate k p) n (fun bs => let us := map (number_of (ts_endianness ts)) (pieces k 4 bs) in if forallb g us then Some us else None)
    (bad_unit (ts_endianness ts) (N.of_nat k) g m).
Proof.
  intros He -> ->. set (e := ts_endianness ts).
  assert (B : faults P (read_bits c 4 (swap_for c ts)) 4 (fun bs => Some (number_of e bs)) none).
  { unfold read_bits. eapply faults_value; [ apply (reads_bits P c ts 4); congruence | ]. apply faults_map. apply faults_exact. }
  pose proof (faults_check P _ (fun u => if g u then RRet u else RErr (EData (m u))) 4 _ (fun u => if g u then Some u else None) m B) as H.
  specialize (H ltac:(intros a; cbv beta; destruct (g a); reflexivity)).
  pose proof (faults_replicate P _ 4 _ _ k H) as R. rewrite N.mul_comm. eapply faults_value; [ | eapply faults_iff; [ | exact R ] ].
  - eapply reads_ext; [ | apply reads_replicate; apply H ]. intros bs _ _. cbv beta zeta. rewrite <- all_some_check, map_map. reflexivity.
  - intros bs msg _. split.
    + intros (blocks & b & -> & Hk & Hbs & Hl & a & E & Hg & ->). injection E as <-. assert (Hbl : Forall (fun b => lenN b = 4) blocks) by (eapply Forall_impl; [ | exact Hbs ]; cbv beta; tauto).
      exists (lenN blocks), (List.concat blocks), b. split; auto. split; [ unfold lenN; lia | ]. split; [ rewrite (lenN_blocks 4) by auto; apply N.mul_comm | ]. split; auto. split.
      * unfold utf32_units. rewrite lenN_length, pieces_blocks by auto. apply Forall_map. eapply Forall_impl; [ | exact Hbs ]. cbv beta. intros x (_ & v & E). now destruct (g (number_of e x)).
      * split; auto. now destruct (g (number_of e b)).
    + intros (j & before & piece & -> & Hj & Hb & Hp & Hu & Hg & ->). exists (pieces (N.to_nat j) 4 before), piece.
      rewrite blocks_pieces, pieces_length by lia. split; auto. split; [ lia | ]. split.
      * unfold utf32_units in Hu. rewrite Forall_map in Hu. apply Forall_forall. intros x Hx. rewrite Forall_forall in Hu. split.
        -- assert (F := blocks_length (N.to_nat j) 4 before ltac:(lia)). rewrite Forall_forall in F. auto.
        -- rewrite (Hu x Hx). eauto.
      * split; auto. exists (number_of e piece). rewrite Hg. auto.
Qed.
Lemma bad_unit_app e k k1 k2 g m bs msg : k = k1 + k2 ->
  (bad_unit e k1 g m bs msg \/ exists b1 b2 (a : list N), bs = b1 ++ b2 /\ lenN b1 = 4 * k1 /\
     (let us := utf32_units e k1 b1 in if forallb g us then Some us else None) = Some a /\ bad_unit e k2 g m b2 msg) <-> bad_unit e k g m bs msg.
Proof.
  intros ->.
  assert (A : forall j1 j2 b1 b2, lenN b1 = 4 * j1 -> utf32_units e (j1 + j2) (b1 ++ b2) = utf32_units e j1 b1 ++ utf32_units e j2 b2).
  { intros j1 j2 b1 b2 Hl. unfold utf32_units. rewrite N2Nat.inj_add, pieces_app, map_app. rewrite <- (pieces_take (N.to_nat j1)). rewrite takeN_app, dropN_app by lia. reflexivity. }
  split.
  - intros [ (j & before & piece & -> & Hj & H) | (b1 & b2 & a & -> & Hl & Hg & j & before & piece & -> & Hj & Hb & Hp & Hu & Hv & ->) ].
    + exists j, before, piece. split; auto. split; [ lia | auto ].
    + exists (k1 + j), (b1 ++ before), piece. rewrite <- app_assoc, lenN_app, A by auto. split; auto. split; [ lia | ]. split; [ lia | ]. split; auto. split; auto.
      apply Forall_app. split; auto. cbv zeta in Hg. destruct (forallb g _) eqn:E; [ | discriminate Hg ]. rewrite forallb_forall in E. now apply Forall_forall.
  - intros (j & before & piece & -> & Hj & Hb & Hp & Hu & Hv & ->). destruct (N.lt_ge_cases j k1) as [ Hlt | Hge ].
    + left. exists j, before, piece. auto 10.
    + right. rewrite <- (takeN_dropN (4 * k1) before) in Hu |- *. replace j with (k1 + (j - k1)) in Hu by lia.
      assert (Hl : lenN (takeN (4 * k1) before) = 4 * k1) by (rewrite lenN_takeN; lia). rewrite A in Hu by exact Hl. apply Forall_app in Hu as (Hu1 & Hu2).
      exists (takeN (4 * k1) before), (dropN (4 * k1) before ++ piece). eexists. rewrite <- app_assoc. split; auto. split; auto. cbv zeta. split.
      * rewrite (proj2 (forallb_forall g _)); [ reflexivity | ]. now apply Forall_forall.
      * exists (j - k1), (dropN (4 * k1) before), piece. rewrite lenN_dropN. split; auto. split; [ lia | ]. split; [ lia | ]. auto.
Qed.

(** * Items *)
Definition faults_item (c : cfg) (t : rty) (d : dtype) : Prop :=
  forall r, reader c t d = DOk r -> faults (~ strings_fit (c_usize_max c) d) (read_one c r) (size d) (decode t d) (unreadable t d).
Ltac never := let H := fresh in intros ? ? _; split; [ intros [] | intros H; inversion H; subst;
  repeat match goal with
  | X : unit_vector _ |- _ => destruct X as [ X | (? & X) ]
  | X : char_vector _ |- _ => destruct X as [ X | (? & X) ]
  | X : string_type _ |- _ => destruct X as [ X | (? & X) ]
  | X : _ \/ _ |- _ => destruct X
  | X : _ /\ _ |- _ => destruct X
  end; discriminate ].
Lemma faults_bits P c n swap : exists f, faults P (read_bits c n swap) n f none.
Proof. eexists. unfold read_bits. apply faults_map. apply faults_exact. Qed.
Lemma bad_codepoint t ts bs msg : unit_vector t -> ts_char ts = TUnicodeStr ->
  bad_unit (ts_endianness ts) (ts_size ts) (fun u => u <? 0x110000) (fun u => lit "codepoint 0x" ++ hex u ++ lit " is out of range") bs msg <-> unreadable t (DPlain ts) bs msg.
Proof.
  intros Ht Hc. split.
  - intros (j & before & piece & -> & Hj & Hb & Hp & Hu & Hv & ->). apply unit_value with (k := j); auto.
    + eapply Forall_impl; [ | exact Hu ]. cbv beta. intros. lia.
    + lia.
    + now apply hex_exact.
  - intros H. inversion H; subst; try (destruct Ht as [ Ht | (? & Ht) ]; discriminate Ht).
    + exists k, before, piece. split; auto. split; auto. split; auto. split; auto. split; [ | split; [ lia | ] ].
      * eapply Forall_impl; [ | eassumption ]. cbv beta. intros. lia.
      * match goal with X : hex_numeral _ _ |- _ => apply hex_exact in X as -> end. reflexivity.
    + exfalso. match goal with X : _ \/ _ |- _ => destruct X as [ [ X | (? & X) ] | (X & _) ] end; destruct Ht as [ Ht | (? & Ht) ]; congruence.
    + exfalso. match goal with X : string_type _ |- _ => destruct X as [ X | (? & X) ] end; destruct Ht as [ Ht | (? & Ht) ]; congruence.
Qed.
Lemma bad_char t ts bs msg : char_vector t \/ t = RString -> ts_char ts = TUnicodeStr ->
  bad_unit (ts_endianness ts) (ts_size ts) is_scalar (fun u => lit "invalid UTF-32 code unit: " ++ hex u) bs msg <-> unreadable t (DPlain ts) bs msg.
Proof.
  intros Ht Hc. split.
  - intros (j & before & piece & -> & Hj & Hb & Hp & Hu & Hv & ->). apply char_value with (k := j); auto.
    + destruct Ht; auto.
    + now apply hex_exact.
  - intros H. inversion H; subst; try (destruct Ht as [ [ Ht | (? & Ht) ] | Ht ]; discriminate Ht).
    + exfalso. match goal with X : unit_vector _ |- _ => destruct X as [ X | (? & X) ] end; destruct Ht as [ [ Ht | (? & Ht) ] | Ht ]; congruence.
    + exists k, before, piece. split; auto. split; auto. split; auto. split; auto. split; [ | split ]; auto.
      match goal with X : hex_numeral _ _ |- _ => apply hex_exact in X as -> end. reflexivity.
    + contradiction.
Qed.
Lemma bad_text t ts bs msg : string_type t -> ts_char ts <> TUnicodeStr -> bytes_ok bs ->
  lenN bs = ts_size ts /\ from_utf8 (strip bs) = None /\ msg = lit "invalid utf-8: " <-> unreadable t (DPlain ts) bs msg.
Proof.
  intros Ht Hc Hb. assert (Hs : Forall (fun b => b < 256) (strip bs)) by now apply Forall_strip. split.
  - intros (Hl & E & ->). apply text_value; auto. intros s Hsc Es. assert (from_utf8 (strip bs) = Some s) by (apply utf8_exact; auto). congruence.
  - intros H. inversion H; subst; try (destruct Ht as [ Ht | (? & Ht) ]; discriminate Ht).
    + exfalso. match goal with X : unit_vector _ |- _ => destruct X as [ X | (? & X) ] end; destruct Ht as [ Ht | (? & Ht) ]; congruence.
    + exfalso. match goal with X : _ \/ _ |- _ => destruct X as [ [ X | (? & X) ] | (_ & X) ] end; [ | | contradiction ]; destruct Ht as [ Ht | (? & Ht) ]; congruence.
    + split; auto. split; auto. destruct (from_utf8 (strip bs)) as [ s | ] eqn:E; [ | reflexivity ]. apply utf8_exact in E as (Hsc & E); auto.
      match goal with X : forall s, _ |- _ => now apply X in E end.
Qed.

Lemma faults_scalar c t d : wf_dtype d -> (forall n t', t <> RArray n t') -> (forall fs, t <> RStruct fs) -> faults_item c t d.
Proof.
  intros Hw Ha Hs r Hr. pose proof (reads_scalar c t d Hw Ha Hs r Hr) as R.
  enough (G : exists f, faults (~ strings_fit (c_usize_max c) d) (read_one c r) (size d) f (unreadable t d)) by (destruct G as (f & G); exact (faults_value _ _ _ _ _ _ R G)).
  clear R. destruct t; try (now destruct (Ha _ _ eq_refl)); try (now destruct (Hs _ eq_refl)); cbn [reader] in Hr.
  - apply dbind_ok in Hr as (sw & H & [= <-]). apply prim_swap_ok in H as (ts & -> & Hp & ->). apply prim_supports_ok in Hp as (Hn & Hc).
    replace (size (DPlain ts)) with (wbytes w).
    2:{ cbn [size]. unfold scalar_size. rewrite Hn. destruct signed; [ | now rewrite Hc ].
        destruct Hc as [ -> | (_ & [ -> | -> ]) ]; reflexivity. }
    destruct (faults_bits (~ strings_fit (c_usize_max c) (DPlain ts)) c (wbytes w) (swap_for c ts)) as (f & B).
    eexists. cbn [read_one read_prim]. eapply faults_iff; [ | apply faults_map; exact B ]. never.
  - apply dbind_ok in Hr as (sw & H & [= <-]). apply prim_swap_ok in H as (ts & -> & Hp & ->). apply prim_supports_ok in Hp as (Hn & Hc).
    replace (size (DPlain ts)) with (fbytes w) by (cbn [size]; unfold scalar_size; now rewrite Hn, Hc).
    destruct (faults_bits (~ strings_fit (c_usize_max c) (DPlain ts)) c (fbytes w) (swap_for c ts)) as (f & B).
    eexists. cbn [read_one read_prim]. eapply faults_iff; [ | apply faults_map; exact B ]. never.
  - apply dbind_ok in Hr as (sw & H & [= <-]). apply prim_swap_ok in H as (ts & -> & Hp & ->). apply prim_supports_ok in Hp as (Hn & Hc).
    replace (size (DPlain ts)) with 1 by (cbn [size]; unfold scalar_size; now rewrite Hn, Hc).
    eexists. cbn [read_one read_prim]. cbv zeta.
    eapply faults_iff; [ | apply faults_check with (g := fun buf => if 2 <=? nth 0 buf 0 then None else Some (XBool (negb (nth 0 buf 0 =? 0))))
      (m := fun buf => lit "invalid value for bool: " ++ dec (nth 0 buf 0)); [ apply faults_exact | ] ].
    + intros bs msg _. split.
      * intros (Hl & a & E & Hg & ->). injection E as <-. destruct bs as [ | b [ | b' r ] ]; rewrite ?lenN_cons, ?lenN_nil in Hl; try lia. cbn [nth] in *.
        destruct (N.leb_spec 2 b); [ | discriminate ]. apply bool_value; auto. now apply decimal_exact.
      * intros H. inversion H; subst.
        -- split; [ reflexivity | ]. exists [b]. split; auto. cbn [nth]. replace (2 <=? b) with true by lia. split; auto.
           match goal with X : shortest_numeral _ _ |- _ => apply decimal_exact in X as -> end. reflexivity.
        -- match goal with X : unit_vector _ |- _ => destruct X as [ X | (? & X) ]; discriminate end.
        -- match goal with X : _ \/ _ |- _ => destruct X as [ [ X | (? & X) ] | (X & _) ]; discriminate end.
        -- match goal with X : string_type _ |- _ => destruct X as [ X | (? & X) ]; discriminate end.
    + intros a. cbv beta. destruct (2 <=? nth 0 a 0); reflexivity.
  - apply dbind_ok in Hr as (sw & H & [= <-]). apply complex_swap_ok in H as (ts & -> & Hn & Hc & ->).
    replace (size (DPlain ts)) with (cbytes w + cbytes w) by (cbn [size]; unfold scalar_size; rewrite Hn, Hc; lia).
    destruct (faults_bits (~ strings_fit (c_usize_max c) (DPlain ts)) c (cbytes w) (swap_for c ts)) as (f & B).
    eexists. cbn [read_one].
    eapply faults_iff; [ | apply faults_bind; [ exact B | intros a; apply faults_map; exact B ] ].
    intros bs msg _. cbv beta. split; [ intros [ [] | (? & ? & ? & _ & _ & _ & []) ] | ]. intros H. exfalso. revert bs msg H.
    enough (forall bs msg, bytes_ok bs -> none bs msg <-> unreadable (RComplex w) (DPlain ts) bs msg) as G. { intros bs msg H. inversion H; subst;
      repeat match goal with
      | X : unit_vector _ |- _ => destruct X as [ X | (? & X) ]
      | X : char_vector _ |- _ => destruct X as [ X | (? & X) ]
      | X : string_type _ |- _ => destruct X as [ X | (? & X) ]
      | X : _ \/ _ |- _ => destruct X
      | X : _ /\ _ |- _ => destruct X
      end; discriminate. }
    never.
  - apply dbind_ok in Hr as (i & H & [= <-]). apply byte_vec_ok in H as (ts & -> & Hm & [ (Hc & ->) | (Hc & ->) ]); cbn [fst snd].
    all: replace (size (DPlain ts)) with (ts_size ts) by (cbn [size]; unfold scalar_size; now rewrite Hc).
    all: eexists; cbn [read_one]; eapply faults_iff; [ | apply faults_map; apply faults_vec; apply too_long; auto; lia ]; never.
  - apply dbind_ok in Hr as ([] & H & [= <-]). apply fixed_bytes_ok in H as (ts & -> & Hm & Hc & Hn).
    replace (size (DPlain ts)) with n by (cbn [size]; unfold scalar_size; now rewrite Hc).
    eexists. cbn [read_one]. eapply faults_iff; [ | apply faults_map; apply faults_exact ]. never.
  - apply dbind_ok in Hr as (i & H & [= <-]).
    assert (G : exists ts b, d = DPlain ts /\ i = (ts_size ts, b, ts) /\ (if b then ts_char ts = TByteStr else ts_char ts = TRawData /\ ts_size ts <= n)).
    { apply arr_byte_vec_ok in H as (ts & -> & Hm & [ (Hc & ->) | (Hc & Hn & ->) ]); [ exists ts, true | exists ts, false ]; auto. }
    destruct G as (ts & b & -> & -> & Hb). cbn [fst snd].
    replace (size (DPlain ts)) with (N.min n (ts_size ts) + (ts_size ts - n)).
    2:{ cbn [size]. unfold scalar_size. destruct b; [ rewrite Hb | destruct Hb as (-> & _) ]; lia. }
    eexists. cbn [read_one].
    eapply faults_iff; [ | apply faults_bind; [ apply faults_exact | intros a; apply faults_map with (f := Some) (F := none) ] ].
    + cbv beta. intros bs msg Hbs. transitivity (none bs msg); [ | revert bs msg Hbs; never ]. unfold none. split; [ intros [ [] | (? & ? & ? & _ & _ & _ & []) ] | intros [] ].
    + destruct (N.ltb_spec n (ts_size ts)); [ apply faults_vec; apply too_long; [ destruct b; tauto | lia ] | ]. replace (ts_size ts - n) with 0 by lia.
      split; [ intros bs rest Hl _; right; apply lenN_0 in Hl as ->; reflexivity | ].
      intros input _. split; [ exists []; auto | intros ? ? ? ? [] ].
  - apply dbind_ok in Hr as (p & H & [= <-]). apply unicode_ok in H as (ts & -> & Hm & Hc & ->). cbn [fst snd].
    cbn [wf_dtype] in Hw. pose proof (legal_irrelevant ts Hw) as Hi. rewrite Hc in Hi.
    eexists. cbn [read_one].
    eapply faults_iff; [ | apply faults_map; eapply faults_units; [ exact Hi | cbn [size]; unfold scalar_size; rewrite Hc; lia | reflexivity ] ].
    intros bs msg _. rewrite N2Nat.id. apply (bad_codepoint RVecU32); auto. now left.
  - apply dbind_ok in Hr as (p & H & [= <-]). apply unicode_ok in H as (ts & -> & Hm & Hc & ->). cbn [fst snd].
    cbn [wf_dtype] in Hw. pose proof (legal_irrelevant ts Hw) as Hi. rewrite Hc in Hi.
    eexists. cbn [read_one].
    eapply faults_iff; [ | apply faults_map; eapply faults_units with (m := fun u => lit "invalid UTF-32 code unit: " ++ hex u); [ exact Hi | cbn [size]; unfold scalar_size; rewrite Hc; lia | reflexivity ] ].
    intros bs msg _. rewrite N2Nat.id. apply (bad_char RVecChar); auto. left. now left.
  - apply string_reader_ok in Hr as (ts & -> & Hm & [ (Hc & ->) | (Hc & ->) ]).
    + cbn [wf_dtype] in Hw. pose proof (legal_irrelevant ts Hw) as Hi. rewrite Hc in Hi.
      eexists. cbn [read_one].
      eapply faults_iff; [ | apply faults_map; eapply faults_units with (m := fun u => lit "invalid UTF-32 code unit: " ++ hex u); [ exact Hi | cbn [size]; unfold scalar_size; rewrite Hc; lia | reflexivity ] ].
      intros bs msg _. rewrite N2Nat.id. apply (bad_char RString); auto.
    + replace (size (DPlain ts)) with (ts_size ts) by (cbn [size]; unfold scalar_size; now rewrite Hc).
      eexists. cbn [read_one].
      eapply faults_iff; [ | apply faults_check with (g := fun v => omap XStr (from_utf8 (strip v))) (m := fun _ => lit "invalid utf-8: "); [ apply faults_vec; apply too_long; auto; lia | ] ].
      * intros bs msg Hb. rewrite <- bad_text; auto; [ | now left | congruence ]. split.
        -- intros (Hl & a & E & Hg & ->). injection E as <-. destruct (from_utf8 (strip bs)); [ discriminate | auto ].
        -- intros (Hl & E & ->). split; auto. exists bs. rewrite E. auto.
      * intros a. cbv beta. rewrite truncate_strip. destruct (from_utf8 (strip a)); reflexivity.
  - apply dbind_ok in Hr as (p & H & [= <-]). apply unicode_arr_ok in H as (ts & -> & Hm & Hc & ->). cbn [fst snd].
    cbn [wf_dtype] in Hw. pose proof (legal_irrelevant ts Hw) as Hi. rewrite Hc in Hi.
    replace (size (DPlain ts)) with (4 * N.of_nat (N.to_nat (N.min (ts_size ts) n)) + 4 * N.of_nat (N.to_nat (ts_size ts - n))) by (cbn [size]; unfold scalar_size; rewrite Hc; lia).
    eexists. cbn [read_one].
    eapply faults_iff; [ | apply faults_bind; [ eapply faults_units; [ exact Hi | reflexivity | reflexivity ]
      | intros a; apply faults_map; eapply faults_units; [ exact Hi | reflexivity | reflexivity ] ] ].
    intros bs msg _. cbv beta. rewrite <- (bad_codepoint (RArrU32 n)) by (auto; right; eauto).
    rewrite <- (bad_unit_app _ (ts_size ts) (N.of_nat (N.to_nat (N.min (ts_size ts) n))) (N.of_nat (N.to_nat (ts_size ts - n)))) by lia. unfold utf32_units. rewrite Nat2N.id. reflexivity.
  - apply dbind_ok in Hr as (p & H & [= <-]). apply unicode_arr_ok in H as (ts & -> & Hm & Hc & ->). cbn [fst snd].
    cbn [wf_dtype] in Hw. pose proof (legal_irrelevant ts Hw) as Hi. rewrite Hc in Hi.
    replace (size (DPlain ts)) with (4 * N.of_nat (N.to_nat (N.min (ts_size ts) n)) + 4 * N.of_nat (N.to_nat (ts_size ts - n))) by (cbn [size]; unfold scalar_size; rewrite Hc; lia).
    eexists. cbn [read_one].
    eapply faults_iff; [ | apply faults_bind; [ eapply faults_units with (m := fun u => lit "invalid UTF-32 code unit: " ++ hex u); [ exact Hi | reflexivity | reflexivity ]
      | intros a; apply faults_map; eapply faults_units with (m := fun u => lit "invalid UTF-32 code unit: " ++ hex u); [ exact Hi | reflexivity | reflexivity ] ] ].
    intros bs msg _. cbv beta. rewrite <- (bad_char (RArrChar n)) by (auto; left; right; eauto).
    rewrite <- (bad_unit_app _ (ts_size ts) (N.of_nat (N.to_nat (N.min (ts_size ts) n))) (N.of_nat (N.to_nat (ts_size ts - n)))) by lia. unfold utf32_units. rewrite Nat2N.id. reflexivity.
  - apply array_string_reader_ok in Hr as (ts & -> & Hm & Hc & ->).
    replace (size (DPlain ts)) with (ts_size ts) by (cbn [size]; unfold scalar_size; now rewrite Hc).
    eexists. cbn [read_one].
    eapply faults_iff; [ | apply faults_check with (g := fun v => omap (fun s => XStr (fit_chars n s)) (from_utf8 (strip v))) (m := fun _ => lit "invalid utf-8: "); [ apply faults_vec; apply too_long; auto; lia | ] ].
    + intros bs msg Hb. rewrite <- bad_text; auto; [ | right; eauto | congruence ]. split.
      * intros (Hl & a & E & Hg & ->). injection E as <-. destruct (from_utf8 (strip bs)); [ discriminate | auto ].
      * intros (Hl & E & ->). split; auto. exists bs. rewrite E. auto.
    + intros a. cbv beta. rewrite truncate_strip. destruct (from_utf8 (strip a)); cbn [omap]; [ now rewrite pop_until_fit | reflexivity ].
Qed.

Lemma unreadable_cons name t fs name' d ds bs msg :
  unreadable t d bs msg \/ (exists b1 b2 v, bs = b1 ++ b2 /\ lenN b1 = size d /\ decode t d b1 = Some v /\ unreadable (RStruct fs) (DRecord ds) b2 msg) <->
  unreadable (RStruct ((name, t) :: fs)) (DRecord ((name', d) :: ds)) bs msg.
Proof.
  split.
  - intros [ H | (b1 & b2 & v & -> & Hl & Hd & H) ].
    + exact (member_value [] name t fs [] name' d ds [] (XRec []) bs msg eq_refl eq_refl H).
    + inversion H as [ | ? ? ? ? ? ? Hx | ? ? ? ? ? ? Hx | ? ? ? Hx | | fs1 n1 t1 fs2 ds1 n2 d2 ds2 before w b msg' Hb Hdec Hu ]; subst.
      rewrite app_assoc. rewrite decode_struct in Hdec. destruct (decode_fields fs1 ds1 before) as [ l | ] eqn:E; [ | discriminate Hdec ].
      apply (member_value ((name, t) :: fs1) n1 t1 fs2 ((name', d) :: ds1) n2 d2 ds2 (b1 ++ before) (XRec (v :: l)) b msg); auto.
      * rewrite size_record in Hb |- *. rewrite lenN_app. cbn [size_fields]. fold size_fields. lia.
      * rewrite decode_struct. cbn [decode_fields]. fold decode_fields. now rewrite takeN_app, dropN_app, Hd, E by exact Hl.
  - intros H. inversion H as [ | ? ? ? ? ? ? Hx | ? ? ? ? ? ? Hx | ? ? ? Hx | | fs1 n1 t1 fs2 ds1 n2 d2 ds2 before w b msg' Hb Hdec Hu Hfs Hds ]; subst.
    destruct fs1 as [ | (n3, t3) fs1 ], ds1 as [ | (n4, d4) ds1 ]; cbn [app] in Hfs, Hds; try discriminate Hdec.
    + injection Hfs as -> -> ->. injection Hds as -> -> ->. apply lenN_0 in Hb as ->. now left.
    + injection Hfs as -> -> <-. injection Hds as -> -> <-. right. rewrite decode_struct in Hdec. cbn [decode_fields] in Hdec. fold decode_fields in Hdec.
      rewrite size_record in Hb. cbn [size_fields] in Hb. fold size_fields in Hb.
      destruct (decode t d (takeN (size d) before)) as [ v | ] eqn:E1; [ | discriminate Hdec ]. destruct (decode_fields fs1 ds1 (dropN (size d) before)) as [ l | ] eqn:E2; [ | discriminate Hdec ].
      exists (takeN (size d) before), (dropN (size d) before ++ b), v. rewrite app_assoc, takeN_dropN. split; auto. split; [ rewrite lenN_takeN; lia | ]. split; auto.
      apply (member_value fs1 n1 t1 fs2 ds1 n2 d2 ds2 _ (XRec l) b msg); auto.
      * rewrite size_record, lenN_dropN. lia.
      * now rewrite decode_struct, E2.
Qed.
Lemma faults_fields (P : Prop) c fs : Forall (fun f => forall d, wf_dtype d -> faults_item c (snd f) d) fs ->
  forall ds rs, (~ strings_fit_fields (c_usize_max c) ds -> P) -> map fst ds = map fst fs -> Forall (fun f => wf_dtype (snd f)) ds -> readers c fs (map snd ds) = DOk rs ->
  faults P (read_fields c rs) (size_fields ds) (decode_fields fs ds) (unreadable (RStruct fs) (DRecord ds)).
Proof.
  induction 1 as [ | (name, t) fs Hf Hfs IH ]; intros [ | (name', d) ds ] rs HP Hn Hw Hr; try discriminate Hn; cbn [map fst snd] in *.
  - injection Hr as <-. cbn [read_fields size_fields]. split; [ apply reads_ret | ]. intros input Hb. split; [ exists []; auto | ].
    intros bs msg rest _ H. exfalso. inversion H as [ | ? ? ? ? ? ? Hx | ? ? ? ? ? ? Hx | ? ? ? Hx | | fs1 n1 t1 fs2 ds1 n2 d2 ds2 before w b msg' Hb' Hdec Hu Hfs' Hds' ]; subst. now destruct fs1.
  - injection Hn as -> Hn. apply Forall_cons_iff in Hw as (Hw & Hws). cbn [snd] in Hw.
    cbn [readers] in Hr. fold (readers c) in Hr. apply dbind_ok in Hr as (r & Hr & H). apply dbind_ok in H as (rs' & Hrs & H). injection H as <-.
    cbn [read_fields size_fields strings_fit_fields] in *. fold (read_fields c). fold size_fields in *.
    assert (F : faults P (let! x := read_one c r in let! xs := read_fields c rs' in RRet (x :: xs)) (size d + size_fields ds)
      (fun bs => match decode t d (takeN (size d) bs) with Some a => omap (cons a) (decode_fields fs ds (dropN (size d) bs)) | None => None end)
      (unreadable (RStruct ((name, t) :: fs)) (DRecord ((name, d) :: ds)))).
    { assert (F1 : faults P (read_one c r) (size d) (decode t d) (unreadable t d)) by (eapply faults_weaken; [ | exact (Hf d Hw r Hr) ]; tauto).
      assert (F2 : forall a : val, faults P (let! xs := read_fields c rs' in RRet (a :: xs)) (size_fields ds) (fun bs => omap (cons a) (decode_fields fs ds bs)) (unreadable (RStruct fs) (DRecord ds)))
        by (intros a; apply faults_map; apply (IH ds rs'); auto; tauto).
      eapply faults_iff; [ | exact (faults_bind P _ _ _ _ _ _ _ _ F1 F2) ].
      intros bs msg _. apply unreadable_cons. }
    eapply faults_value; [ | exact F ]. eapply reads_ext; [ | apply F ].
    intros bs _ _. cbn [decode_fields]. fold decode_fields. destruct (decode t d _); auto.
Qed.
Lemma faults_all c t : forall d, wf_dtype d -> faults_item c t d.
Proof.
  induction t as [ t Ha Hs | n t IH | fs IH ] using rty_rect'; intros d Hw.
  - now apply faults_scalar.
  - intros r Hr. pose proof (reads_all c (RArray n t) d Hw r Hr) as R.
    enough (G : exists f, faults (~ strings_fit (c_usize_max c) d) (read_one c r) (size d) f (unreadable (RArray n t) d)) by (destruct G as (f & G); exact (faults_value _ _ _ _ _ _ R G)).
    clear R. cbn [reader] in Hr. apply dbind_ok in Hr as (ty & Hty & H). apply array_inner_ok in Hty as ->.
    apply dbind_ok in H as (r' & Hr & [= <-]). destruct Hw as (Hn & Hw).
    replace (size (DArray n ty)) with (N.of_nat (N.to_nat n) * size ty) in * by (cbn [size]; lia).
    eexists. cbn [read_one]. eapply faults_iff; [ | apply faults_map; apply faults_replicate; exact (IH ty Hw r' Hr) ].
    intros bs msg _. split.
    + intros (blocks & b & -> & Hl & Hbs & Hu). apply element_value; auto. unfold lenN. lia.
    + intros H. inversion H as [ | ? ? ? ? ? ? Hx | ? ? ? ? ? ? Hx | ? ? ? Hx | ? ? ? ? blocks b msg' Hl Hbs Hu | ]; subst.
      exists blocks, b. split; auto. split; auto. unfold lenN in Hl. lia.
  - intros r Hr. pose proof (reads_all c (RStruct fs) d Hw r Hr) as R.
    enough (G : exists f, faults (~ strings_fit (c_usize_max c) d) (read_one c r) (size d) f (unreadable (RStruct fs) d)) by (destruct G as (f & G); exact (faults_value _ _ _ _ _ _ R G)).
    clear R. rewrite reader_struct in Hr. apply dbind_ok in Hr as (dts & Hd & H). apply extract_ok in Hd as (ds & -> & Hn & ->).
    apply dbind_ok in H as (rs & Hrs & [= <-]). rewrite size_record, read_one_struct, strings_fit_record.
    eexists. apply faults_map. eapply faults_fields; [ exact IH | auto | exact Hn | | exact Hrs ].
    rewrite wf_record in Hw. eapply Forall_impl; [ | exact Hw ]. cbv beta. tauto.
Qed.

(** What is said, and how much has been read then. *)
Lemma unreadable_exact c t d r input e rest : wf_dtype d -> strings_fit (c_usize_max c) d -> reader c t d = DOk r -> bytes_ok input -> e <> EUnexpectedEof ->
  run (read_one c r) input = (Err e, rest) <-> exists bs msg, input = bs ++ rest /\ e = EData msg /\ unreadable t d bs msg.
Proof.
  intros Hw Hs Hr Hb He. destruct (faults_all c t d Hw r Hr) as (_ & H). destruct (H input Hb) as (H1 & H2). split.
  - intros E. rewrite E in H1. destruct H1 as [ (-> & _) | (bs & msg & -> & Hi & Hu) ]; [ contradiction | eauto ].
  - intros (bs & msg & Hi & -> & Hu). apply (H2 bs); auto.
Qed.
(** The end of the input. *)
Lemma cut_exact c t d r input : wf_dtype d -> strings_fit (c_usize_max c) d -> reader c t d = DOk r -> bytes_ok input ->
  run (read_one c r) input = (Err EUnexpectedEof, []) <-> lenN input < size d /\ ~ exists bs rest msg, input = bs ++ rest /\ unreadable t d bs msg.
Proof.
  intros Hw Hs Hr Hb. destruct (faults_all c t d Hw r Hr) as (_ & H). destruct (H input Hb) as (H1 & H2). split.
  - intros E. rewrite E in H1. destruct H1 as [ (_ & Hl & _) | (bs & msg & He & _) ]; [ | discriminate He ]. split; auto.
    intros (bs & rest & msg & Hi & Hu). rewrite (H2 bs msg rest Hi Hu) in E by auto. discriminate E.
  - intros (Hl & Hn). destruct (run (read_one c r) input) as ([ v | e | ], rest).
    + destruct H1 as (bs & -> & Hbs & _). rewrite lenN_app in Hl. lia.
    + destruct H1 as [ (-> & _ & ->) | (bs & msg & -> & Hi & Hu) ]; [ reflexivity | ]. destruct Hn. eauto.
    + contradiction.
Qed.
(** Without any assumption about the sizes of strings. *)
Lemma unreadable_sound c t d r input : wf_dtype d -> reader c t d = DOk r -> bytes_ok input ->
  match run (read_one c r) input with
  | (Ok v, rest) => exists bs, input = bs ++ rest /\ lenN bs = size d /\ decode t d bs = Some v
  | (Err e, rest) => e = EUnexpectedEof /\ rest = [] /\ lenN input < size d \/ exists bs msg, e = EData msg /\ input = bs ++ rest /\ unreadable t d bs msg
  | (Panic, _) => ~ strings_fit (c_usize_max c) d
  end.
Proof.
  intros Hw Hr Hb. destruct (faults_all c t d Hw r Hr) as (_ & H). destruct (H input Hb) as (H1 & _). destruct (run (read_one c r) input) as ([ v | e | ], rest); auto.
  destruct H1 as [ (? & ? & ?) | H1 ]; auto.
Qed.

(** A value is storable or unstorable in one way. *)
Lemma one_unstorable c t d w v : wf_dtype d -> strings_fit (c_usize_max c) d -> writer c t d = DOk w -> has_type t v ->
  (exists bs, encode t d v = Some bs /\ forall out msg, ~ unstorable t d v out msg) \/
  (encode t d v = None /\ exists out msg, unstorable t d v out msg /\ forall out' msg', unstorable t d v out' msg' -> out' = out /\ msg' = msg).
Proof.
  intros Hw Hs Hr Hv. assert (X := fun out e => unstorable_exact c t d w v out e Hw Hs Hr Hv).
  destruct (writes_all c t d Hw w Hr v Hv) as [ (Hn & _) | W ]; [ contradiction | ]. destruct (encode t d v) as [ bs | ].
  - left. exists bs. split; auto. intros out msg Hu. assert (E : write_one c w v = (out, Err (EData msg))) by (apply X; eauto). congruence.
  - right. split; auto. destruct W as (out & e & E). destruct (proj1 (X out e) E) as (msg & -> & Hu). exists out, msg. split; auto.
    intros out' msg' Hu'. assert (E' : write_one c w v = (out', Err (EData msg'))) by (apply X; eauto). rewrite E in E'. injection E' as -> ->. auto.
Qed.
Lemma one_unreadable c t d r item : wf_dtype d -> strings_fit (c_usize_max c) d -> reader c t d = DOk r -> bytes_ok item -> lenN item = size d ->
  (exists v, decode t d item = Some v /\ forall bs rest msg, item = bs ++ rest -> ~ unreadable t d bs msg) \/
  (decode t d item = None /\ exists bs rest msg, item = bs ++ rest /\ unreadable t d bs msg
     /\ forall bs' rest' msg', item = bs' ++ rest' -> unreadable t d bs' msg' -> bs' = bs /\ msg' = msg).
Proof.
  intros Hw Hs Hr Hb Hl. destruct (faults_all c t d Hw r Hr) as (R & H). destruct (H item Hb) as (H1 & H2). specialize (R item [] Hl Hb). rewrite app_nil_r in R.
  destruct R as [ (Hn & _) | R ]; [ contradiction | ]. destruct (decode t d item) as [ v | ].
  - left. exists v. split; auto. intros bs rest msg Hi Hu. rewrite (H2 bs msg rest Hi Hu) in R by auto. discriminate R.
  - right. split; auto. destruct R as (e & rest & E). rewrite E in H1. destruct H1 as [ (_ & Hc & _) | (bs & msg & -> & Hi & Hu) ]; [ lia | ].
    exists bs, rest, msg. split; auto. split; auto. intros bs' rest' msg' Hi' Hu'. rewrite (H2 bs' msg' rest' Hi' Hu') in E by auto. injection E as -> ->.
    split; auto. rewrite Hi in Hi'. now apply app_inv_tail in Hi'.
Qed.
Lemma utf8_ascii s : Forall (fun ch => ch < 128) s -> utf8_string s = s.
Proof.
  induction 1 as [ | ch s Hc Hs IH ]; [ reflexivity | ]. unfold utf8_string in *. cbn [flat_map]. rewrite IH. unfold utf8_octets. now replace (ch <? 0x80) with true by lia.
Qed.
Lemma reported_ascii t d v out msg : unstorable t d v out msg -> forall ts s, d = DPlain ts -> v = XStr s -> Forall (fun ch => ch < 128) s ->
  exists n w, msg = lit "string has too many code units (" ++ n ++ lit ") for type-string '" ++ w ++ lit "'" /\ shortest_numeral n (lenN s) /\ ts_size ts < lenN s.
Proof.
  intros H ts s -> -> Ha. inversion H; subst.
  - exists n, w. auto.
  - exists n, w. split; auto. split; auto. match goal with X : _ < lenN (utf8_string s) |- _ => now rewrite utf8_ascii in X end.
Qed.
