(** UTF-8 and decimal round trips. *)
From Verif Require Import M_Base M_Text P_Base.
Open Scope N_scope.

(** * Decimal *)
Lemma dec_value_app a b : dec_value (a ++ b) = fold_left (fun acc c => acc * 10 + (c - 48)) b (dec_value a).
Proof. unfold dec_value. now rewrite fold_left_app. Qed.

Lemma dec_aux_acc fuel : forall n acc, dec_aux fuel n acc = dec_aux fuel n [] ++ acc.
Proof.
  induction fuel; intros n acc; cbn [dec_aux]; auto.
  destruct (n / 10 =? 0); auto.
  rewrite (IHfuel _ (_ :: acc)), (IHfuel _ [_]), <- app_assoc. reflexivity.
Qed.

(** Unfolding equation of [dec]. *)
Lemma log2_div10 n : n / 10 <> 0 -> (N.to_nat (N.log2 (n / 10)) < N.to_nat (N.log2 n))%nat.
Proof.
  intros H. assert (N.log2 (n / 10) < N.log2 n); [ | lia ].
  apply N.lt_le_trans with (N.log2 (2 * (n / 10))).
  - rewrite N.log2_double; lia.
  - apply N.log2_le_mono. lia.
Qed.

Lemma dec_aux_fuel f1 : forall f2 n acc,
  (N.to_nat (N.log2 n) < f1)%nat -> (N.to_nat (N.log2 n) < f2)%nat -> dec_aux f1 n acc = dec_aux f2 n acc.
Proof.
  induction f1; intros f2 n acc H1 H2; [ lia | ].
  destruct f2; [ lia | ]. cbn [dec_aux].
  destruct (n / 10 =? 0) eqn:E; auto.
  apply N.eqb_neq in E. pose proof (log2_div10 n E). apply IHf1; lia.
Qed.

Lemma dec_eq n : dec n = (if n / 10 =? 0 then [] else dec (n / 10)) ++ [48 + n mod 10].
Proof.
  unfold dec at 1. cbn [dec_aux]. destruct (n / 10 =? 0) eqn:E; auto.
  rewrite dec_aux_acc. f_equal. unfold dec. apply dec_aux_fuel; auto with arith.
  apply N.eqb_neq in E. now apply log2_div10.
Qed.

Lemma dec_ind (P : N -> Prop) :
  (forall n, (n / 10 = 0 -> P n)) -> (forall n, n / 10 <> 0 -> P (n / 10) -> P n) -> forall n, P n.
Proof.
  intros H0 H1 n. induction n using (well_founded_induction N.lt_wf_0).
  destruct (N.eq_dec (n / 10) 0); auto. apply H1; auto. apply H. lia.
Qed.

Lemma dec_value_dec n : dec_value (dec n) = n.
Proof.
  induction n using dec_ind; rewrite dec_eq.
  - rewrite H; cbn [N.eqb app]. unfold dec_value; cbn [fold_left]. lia.
  - destruct (N.eqb_spec (n / 10) 0); [ lia | ].
    rewrite dec_value_app, IHn. cbn [fold_left]. lia.
Qed.

Lemma dec_nonempty n : dec n <> [].
Proof. rewrite dec_eq. intros H. apply app_eq_nil in H. now destruct H. Qed.

Lemma dec_digits n : Forall (fun c => is_digit c = true) (dec n).
Proof.
  induction n using dec_ind; rewrite dec_eq.
  - rewrite H; cbn [N.eqb app]. constructor; auto. unfold is_digit. lia.
  - destruct (N.eqb_spec (n / 10) 0); [ lia | ].
    apply Forall_app; split; auto. constructor; auto. unfold is_digit. lia.
Qed.

(** No superfluous leading zero. *)
Lemma dec_head n : n <> 0 -> exists c r, dec n = c :: r /\ 49 <= c <= 57.
Proof.
  induction n using dec_ind; intros Hn; rewrite dec_eq.
  - rewrite H; cbn [N.eqb app]. do 2 eexists; split; eauto. lia.
  - destruct (N.eqb_spec (n / 10) 0); [ lia | ].
    destruct IHn as (c & r & -> & Hc); auto. do 2 eexists; split; [ reflexivity | auto ].
Qed.

Lemma dec_0 : dec 0 = [48].
Proof. reflexivity. Qed.

Lemma dec_length_bound k : forall n, n < 10 ^ N.of_nat k -> (List.length (dec n) <= Nat.max 1 k)%nat.
Proof.
  induction k; intros n Hn; rewrite dec_eq.
  - cbn in Hn. replace n with 0 by lia. cbn; lia.
  - destruct (N.eqb_spec (n / 10) 0); [ cbn; lia | ].
    assert (n / 10 < 10 ^ N.of_nat k).
    { apply N.div_lt_upper_bound; [ lia | ]. rewrite <- N.pow_succ_r'. now rewrite <- Nat2N.inj_succ. }
    rewrite app_length. specialize (IHk _ H). destruct k; [ cbn in H; lia | cbn in *; lia ].
Qed.

Lemma dec_length_u64 n : n < 2 ^ 64 -> 1 <= lenN (dec n) <= 20.
Proof.
  intros H. split.
  - pose proof (dec_nonempty n). destruct (dec n); [ congruence | rewrite lenN_cons; lia ].
  - unfold lenN. assert (n < 10 ^ N.of_nat 20).
    { replace (10 ^ N.of_nat 20) with 100000000000000000000 by reflexivity.
      replace (2 ^ 64) with 18446744073709551616 in H by reflexivity. lia. }
    apply dec_length_bound in H0. lia.
Qed.

Lemma dec_inj a b : dec a = dec b -> a = b.
Proof. intros H. rewrite <- (dec_value_dec a), H. apply dec_value_dec. Qed.

Lemma parse_u64_dec n : n < 2 ^ 64 -> parse_u64 (dec n) = Some n.
Proof. intros H. unfold parse_u64. rewrite dec_value_dec. destruct (N.ltb_spec n (2 ^ 64)); [ auto | lia ]. Qed.

(** * Span *)
Lemma span_app_stop {A} (f : A -> bool) a c r :
  Forall (fun x => f x = true) a -> f c = false -> span f (a ++ c :: r) = (a, c :: r).
Proof. intros H Hc. induction H; cbn; [ now rewrite Hc | ]. now rewrite H, IHForall. Qed.
Lemma span_all {A} (f : A -> bool) a : Forall (fun x => f x = true) a -> span f a = (a, []).
Proof. intros H. induction H; cbn; auto. now rewrite H, IHForall. Qed.
Lemma span_spec {A} (f : A -> bool) l a b :
  span f l = (a, b) -> l = a ++ b /\ Forall (fun x => f x = true) a /\ match b with [] => True | c :: _ => f c = false end.
Proof.
  revert a b; induction l; cbn; intros x y.
  - intros [= <- <-]; repeat split; auto.
  - destruct (f a) eqn:E.
    + destruct (span f l) as (u, v). intros [= <- <-]. destruct (IHl u v) as (-> & ? & ?); auto.
    + intros [= <- <-]. repeat split; auto.
Qed.

(** * UTF-8 *)
Definition scalars (s : text) : Prop := Forall (fun c => is_scalar c = true) s.

Lemma utf8_app a b : utf8 (a ++ b) = utf8 a ++ utf8 b.
Proof. apply flat_map_app. Qed.

(** Division facts, stated once so that later goals are free of division. *)
Lemma div64 c : exists q r, c / 64 = q /\ c mod 64 = r /\ c = q * 64 + r /\ r < 64.
Proof. exists (c / 64), (c mod 64). repeat split; lia. Qed.
Lemma div64_eq q r : r < 64 -> (q * 64 + r) / 64 = q /\ (q * 64 + r) mod 64 = r.
Proof. lia. Qed.
Lemma div4096 c : c / 4096 = c / 64 / 64.
Proof. now rewrite N.div_div. Qed.
Lemma div262144 c : c / 262144 = c / 64 / 64 / 64.
Proof. now rewrite !N.div_div. Qed.

Ltac split64 c :=
  rewrite ?div4096, ?div262144;
  let q := fresh "q" in let r := fresh "r" in let Hq := fresh in let Hr := fresh in
  destruct (div64 c) as (q & r & Hq & Hr & ? & ?); rewrite ?Hq, ?Hr; clear Hq Hr.

Lemma utf8_char_bytes c : is_scalar c = true -> Forall (fun b => b < 256) (utf8_char c).
Proof.
  unfold is_scalar, is_surrogate, utf8_char. intros H.
  split64 c. split64 q. split64 q0.
  destruct (c <? 0x80) eqn:?; [ | destruct (c <? 0x800) eqn:?; [ | destruct (c <? 0x10000) eqn:? ] ];
    repeat constructor; lia.
Qed.

Lemma utf8_bytes s : scalars s -> Forall (fun b => b < 256) (utf8 s).
Proof.
  induction 1; cbn; auto. apply Forall_app; split; auto. now apply utf8_char_bytes.
Qed.

Lemma from_utf8_char c rest : is_scalar c = true ->
  from_utf8 (utf8_char c ++ rest) = option_map (cons c) (from_utf8 rest).
Proof.
  unfold is_scalar, is_surrogate, utf8_char. intros H.
  destruct (c <? 0x80) eqn:E1.
  { cbn [app from_utf8]. now rewrite E1. }
  destruct (c <? 0x800) eqn:E2.
  { split64 c. cbn [app from_utf8]. unfold is_cont.
    replace (0xC0 + q <? 0x80) with false by lia.
    replace (0xC0 + q <? 0xC0) with false by lia.
    replace (negb _) with false by lia.
    replace (0xC0 + q <? 0xE0) with true by lia.
    replace ((0xC0 + q - 0xC0) * 64 + (0x80 + r - 0x80)) with c by lia.
    replace (0x80 <=? c) with true by lia. reflexivity. }
  destruct (c <? 0x10000) eqn:E3.
  { split64 c. split64 q. cbn [app from_utf8]. unfold is_cont.
    replace (0xE0 + q0 <? 0x80) with false by lia.
    replace (0xE0 + q0 <? 0xC0) with false by lia.
    replace (negb _) with false by lia.
    replace (0xE0 + q0 <? 0xE0) with false by lia.
    replace (negb _) with false by lia.
    replace (0xE0 + q0 <? 0xF0) with true by lia.
    replace ((0xE0 + q0 - 0xE0) * 4096 + (0x80 + r0 - 0x80) * 64 + (0x80 + r - 0x80)) with c by lia.
    unfold is_surrogate.
    replace (0x800 <=? c) with true by lia.
    replace (negb _) with true by lia. reflexivity. }
  split64 c. split64 q. split64 q0. cbn [app from_utf8]. unfold is_cont.
  replace (0xF0 + q1 <? 0x80) with false by lia.
  replace (0xF0 + q1 <? 0xC0) with false by lia.
  replace (negb _) with false by lia.
  replace (0xF0 + q1 <? 0xE0) with false by lia.
  replace (negb _) with false by lia.
  replace (0xF0 + q1 <? 0xF0) with false by lia.
  replace (negb _) with false by lia.
  replace (0xF0 + q1 <? 0xF8) with true by lia.
  replace ((0xF0 + q1 - 0xF0) * 262144 + (0x80 + r1 - 0x80) * 4096
           + (0x80 + r0 - 0x80) * 64 + (0x80 + r - 0x80)) with c by lia.
  replace (0x10000 <=? c) with true by lia.
  replace (c <? 0x110000) with true by lia. reflexivity.
Qed.

Lemma from_utf8_utf8 s : scalars s -> from_utf8 (utf8 s) = Some s.
Proof.
  induction 1; auto. cbn [utf8 flat_map]. rewrite from_utf8_char by auto.
  fold (utf8 l). now rewrite IHForall.
Qed.

(** The decoder only accepts encodings: it is the exact inverse. *)
Lemma from_utf8_sound_aux n : forall bs s, (List.length bs <= n)%nat -> Forall (fun b => b < 256) bs ->
  from_utf8 bs = Some s -> scalars s /\ utf8 s = bs.
Proof.
  induction n; intros bs s Hn Hb H.
  { destruct bs; [ | cbn in Hn; lia ]. injection H as <-. split; [ constructor | reflexivity ]. }
  destruct bs as [ | b0 r0 ]; [ injection H as <-; split; [ constructor | reflexivity ] | ].
  apply Forall_cons_iff in Hb; destruct Hb as (Hb0 & Hr0). cbn [from_utf8] in H. cbn [List.length] in Hn.
  assert (step : forall c r bs', option_map (cons c) (from_utf8 r) = Some s ->
     (List.length r <= n)%nat -> Forall (fun b => b < 256) r -> is_scalar c = true -> utf8_char c = bs' ->
     scalars s /\ utf8 s = bs' ++ r).
  { intros c r bs' Ho Hl Hr Hc <-. destruct (from_utf8 r) eqn:E; [ | discriminate ].
    injection Ho as <-. destruct (IHn r t) as (? & ?); auto.
    split; [ now constructor | ]. cbn [utf8 flat_map]. fold (utf8 t). congruence. }
  destruct (b0 <? 0x80) eqn:E1.
  { apply (step b0 r0 [b0]) in H; auto; [ lia | unfold is_scalar, is_surrogate; lia | unfold utf8_char; now rewrite E1 ]. }
  destruct (b0 <? 0xC0) eqn:E2; [ discriminate | ].
  destruct r0 as [ | b1 r1 ]; [ discriminate | ]. apply Forall_cons_iff in Hr0; destruct Hr0 as (Hb1 & Hr1). cbn [List.length] in Hn.
  destruct (negb (is_cont b1)) eqn:C1; [ discriminate | ]. unfold is_cont in C1.
  destruct (b0 <? 0xE0) eqn:E3.
  { cbv zeta in H. match type of H with context [0x80 <=? ?x] => remember x as c eqn:Hc in H end.
    destruct (0x80 <=? c) eqn:R; [ | discriminate ].
    apply (step c r1 [b0; b1]) in H; auto; [ lia | unfold is_scalar, is_surrogate; lia | ].
    unfold utf8_char. replace (c <? 0x80) with false by lia. replace (c <? 0x800) with true by lia.
    clear - Hc C1 E1 E2 E3. split64 c. f_equal; [ | f_equal ]; lia. }
  destruct r1 as [ | b2 r2 ]; [ discriminate | ]. apply Forall_cons_iff in Hr1; destruct Hr1 as (Hb2 & Hr2). cbn [List.length] in Hn.
  destruct (negb (is_cont b2)) eqn:C2; [ discriminate | ]. unfold is_cont in C2.
  destruct (b0 <? 0xF0) eqn:E4.
  { cbv zeta in H. match type of H with context [0x800 <=? ?x] => remember x as c eqn:Hc in H end.
    destruct ((0x800 <=? c) && negb (is_surrogate c)) eqn:R; [ | discriminate ].
    apply (step c r2 [b0; b1; b2]) in H; auto; [ lia | apply andb_true_iff in R; destruct R as (R1 & R2); unfold is_scalar; rewrite R2, andb_true_r; lia | ].
    apply andb_true_iff in R; destruct R as (R1 & R2).
    unfold utf8_char. replace (c <? 0x80) with false by lia. replace (c <? 0x800) with false by lia.
    replace (c <? 0x10000) with true by lia.
    clear - Hc C1 C2 E1 E2 E3 E4. split64 c. split64 q. f_equal; [ | f_equal; [ | f_equal ] ]; lia. }
  destruct r2 as [ | b3 r3 ]; [ discriminate | ]. apply Forall_cons_iff in Hr2; destruct Hr2 as (Hb3 & Hr3). cbn [List.length] in Hn.
  destruct (negb (is_cont b3)) eqn:C3; [ discriminate | ]. unfold is_cont in C3.
  destruct (b0 <? 0xF8) eqn:E5; [ | discriminate ].
  cbv zeta in H. match type of H with context [0x10000 <=? ?x] => remember x as c eqn:Hc in H end.
  destruct ((0x10000 <=? c) && (c <? 0x110000)) eqn:R; [ | discriminate ].
  apply (step c r3 [b0; b1; b2; b3]) in H; auto; [ lia | unfold is_scalar, is_surrogate; lia | ].
  unfold utf8_char. replace (c <? 0x80) with false by lia. replace (c <? 0x800) with false by lia.
  replace (c <? 0x10000) with false by lia.
  clear - Hc C1 C2 C3 E1 E2 E3 E4 E5. split64 c. split64 q. split64 q0.
  f_equal; [ | f_equal; [ | f_equal; [ | f_equal ] ] ]; lia.
Qed.

Lemma from_utf8_sound bs s : Forall (fun b => b < 256) bs -> from_utf8 bs = Some s -> scalars s /\ utf8 s = bs.
Proof. intros. eapply from_utf8_sound_aux; eauto. Qed.

(** ASCII text is its own encoding. *)
Definition ascii_text (s : text) : Prop := Forall (fun c => c < 128) s.
Lemma utf8_ascii s : ascii_text s -> utf8 s = s.
Proof.
  induction 1; auto. cbn [utf8 flat_map]. fold (utf8 l). rewrite IHForall.
  unfold utf8_char. replace (x <? 0x80) with true by lia. reflexivity.
Qed.
Lemma ascii_scalars s : ascii_text s -> scalars s.
Proof. intros H. eapply Forall_impl; [ | exact H ]. intros c Hc. cbn in Hc. unfold is_scalar, is_surrogate. lia. Qed.
Lemma ascii_app a b : ascii_text a -> ascii_text b -> ascii_text (a ++ b).
Proof. intros; apply Forall_app; auto. Qed.
Lemma dec_ascii n : ascii_text (dec n).
Proof. eapply Forall_impl; [ | apply dec_digits ]. intros c. cbn. unfold is_digit. lia. Qed.

Lemma utf8_char_len c : 1 <= lenN (utf8_char c) <= 4.
Proof.
  unfold utf8_char. destruct (c <? 0x80); [ | destruct (c <? 0x800); [ | destruct (c <? 0x10000) ] ];
    rewrite ?lenN_cons, lenN_nil; lia.
Qed.
Lemma utf8_len s : lenN s <= lenN (utf8 s).
Proof.
  induction s; auto. reflexivity. cbn [utf8 flat_map]. rewrite lenN_cons, lenN_app.
  pose proof (utf8_char_len a). fold (utf8 s). lia.
Qed.

Lemma utf8_ascii_inv s : scalars s -> ascii_text (utf8 s) -> ascii_text s.
Proof.
  induction 1; intros Ha; [ constructor | ]. cbn [utf8 flat_map] in Ha. apply Forall_app in Ha. destruct Ha as (Ha & Hb).
  constructor; [ | now apply IHForall ].
  unfold utf8_char in Ha. destruct (x <? 0x80) eqn:E; [ lia | ].
  destruct (x <? 0x800); [ | destruct (x <? 0x10000) ]; apply Forall_inv in Ha; cbv beta in Ha; lia.
Qed.
