(** Literals: what the parser can return, and that its fuel is always enough. *)
From Verif Require Import M_Base M_Text M_TypeStr M_PyLit M_IO M_Header M_Read S_TypeStr S_DType S_Shape P_Base P_Text P_TypeStr P_Header P_Shape.
Open Scope N_scope.

(** * Suffixes *)
Definition tail_of (r s : text) : Prop := exists p, s = p ++ r.
Definition after (r s : text) : Prop := exists c p, s = c :: p ++ r.
Lemma tail_refl s : tail_of s s.
Proof. now exists []. Qed.
Lemma tail_trans a b c : tail_of a b -> tail_of b c -> tail_of a c.
Proof. intros (p & ->) (q & ->). exists (q ++ p). now rewrite app_assoc. Qed.
Lemma tail_after a b c : tail_of a b -> after b c -> after a c.
Proof. intros (p & ->) (x & q & ->). exists x, (q ++ p). now rewrite app_assoc. Qed.
Lemma after_tail a b c : after a b -> tail_of b c -> after a c.
Proof. intros (x & p & ->) ([ | y q ] & ->). - now exists x, p. - exists y, (q ++ x :: p). cbn. now rewrite <- app_assoc. Qed.
Lemma after_weak a b : after a b -> tail_of a b.
Proof. intros (x & p & ->). now exists (x :: p). Qed.
Lemma after_cons c s : after s (c :: s).
Proof. now exists c, []. Qed.
Lemma tail_cons c s : tail_of s (c :: s).
Proof. now exists [c]. Qed.
Lemma tail_cons2 a b c : tail_of a b -> tail_of a (c :: b).
Proof. intros (p & ->). now exists (c :: p). Qed.
Lemma after_cons2 a b c : tail_of a b -> after a (c :: b).
Proof. intros (p & ->). now exists c, p. Qed.
Lemma after_len a b : after a b -> (List.length a < List.length b)%nat.
Proof. intros (x & p & ->). cbn. rewrite app_length. lia. Qed.
Lemma tail_len a b : tail_of a b -> (List.length a <= List.length b)%nat.
Proof. intros (p & ->). rewrite app_length. lia. Qed.
Lemma skip_ws_tail s : tail_of (skip_ws s) s.
Proof. induction s as [ | c s IH ]; [ apply tail_refl | ]. cbn [skip_ws]. destruct (is_blank c); [ now apply tail_cons2 | apply tail_refl ]. Qed.
Definition scal (s : text) : Prop := forall ch, In ch s -> is_scalar ch = true.
Lemma scalars_tail a b : tail_of a b -> scal b -> scal a.
Proof. intros (p & ->) H ch Hc. apply H, in_app_iff. now right. Qed.
Lemma scalars_cons c s : is_scalar c = true -> scal s -> scal (c :: s).
Proof. intros Hc Hs ch [ <- | H ]; auto. Qed.

Ltac chop H := repeat match type of H with
  | (match ?x with _ => _ end) = Some _ => destruct x eqn:?; try discriminate H
  end.

Lemma cons1_inv c p a b : cons1 c p = Some (a, b) -> exists a', p = Some (a', b) /\ a = c :: a'.
Proof. destruct p as [ (x, y) | ]; cbn; [ | discriminate ]. intros [= <- <-]. now exists x. Qed.
Lemma cons_scalar_inv c p a b : cons_scalar c p = Some (a, b) -> exists a', p = Some (a', b) /\ a = c :: a' /\ is_scalar c = true.
Proof. unfold cons_scalar. destruct (is_scalar c) eqn:E; [ | discriminate ]. intros H. apply cons1_inv in H as (a' & ? & ?). now exists a'. Qed.
Lemma cons_opt_inv c p a b : cons_opt c p = Some (a, b) -> exists n a', p = Some (a', b) /\ a = n :: a' /\ is_scalar n = true.
Proof. destruct c as [ n | ]; cbn; [ | discriminate ]. intros H. apply cons_scalar_inv in H as (a' & ? & ? & ?). now exists n, a'. Qed.
Lemma simple_escape_scalar e x : simple_escape e = Some x -> is_scalar x = true.
Proof. unfold simple_escape. intros H. repeat match type of H with (if ?b then _ else _) = _ => destruct b end; try discriminate; injection H as <-; reflexivity. Qed.

Lemma p_str_inv long q : forall n s a b, (List.length s <= n)%nat -> p_str long q s = Some (a, b) -> after b s /\ (scal s -> scal a).
Proof.
  induction n as [ | n IH ]; intros s a b Hn H; (destruct s as [ | c r ]; [ discriminate | ]); cbn [List.length] in Hn; [ lia | ].
  assert (Step : forall r' a' , tail_of r' r -> p_str long q r' = Some (a', b) -> after b (c :: r) /\ (scal (c :: r) -> scal a')).
  { intros r' a' Ht Hp. pose proof (tail_len _ _ Ht). apply IH in Hp as (Ha & Hs); [ | lia ]. split.
    - apply after_cons2. apply tail_trans with r'; auto. now apply after_weak.
    - intros Hc. apply Hs. apply scalars_tail with (c :: r); auto. now apply tail_cons2. }
  assert (Hq : forall r', (tail_of r' r -> tail_of r' (c :: r))) by (intros; now apply tail_cons2).
  assert (T : forall x r1, r = x :: r1 -> tail_of r1 r) by (intros x r1 ->; apply tail_cons).
  assert (T2 : forall x y r1, r = x :: y :: r1 -> tail_of r1 r) by (intros x y r1 ->; now exists [x; y]).
  assert (T3 : forall x y z r1, r = x :: y :: z :: r1 -> tail_of r1 r) by (intros x y z r1 ->; now exists [x; y; z]).
  assert (T5 : forall x y z u v r1, r = x :: y :: z :: u :: v :: r1 -> tail_of r1 r) by (intros x y z u v r1 ->; now exists [x; y; z; u; v]).
  assert (T9 : forall x y z u v x2 y2 z2 u2 r1, r = x :: y :: z :: u :: v :: x2 :: y2 :: z2 :: u2 :: r1 -> tail_of r1 r)
    by (intros x y z u v x2 y2 z2 u2 r1 ->; now exists [x; y; z; u; v; x2; y2; z2; u2]).
  cbn [p_str] in H.
  destruct (c =? 92) eqn:Ec.
  - destruct r as [ | e r1 ]; [ discriminate | ].
    destruct (simple_escape e) as [ x | ] eqn:Es.
    { apply cons1_inv in H as (a' & H & ->). apply Step in H as (? & Hs); [ | eauto ]. split; auto.
      intros ?. apply scalars_cons; auto. eapply simple_escape_scalar; eauto. }
    destruct (e =? 10). { apply Step in H; eauto. }
    destruct (is_oct e).
    { destruct r1 as [ | e2 r2 ]; [ discriminate | ]. destruct (is_oct e2).
      - destruct r2 as [ | e3 r3 ]; [ discriminate | ]. destruct (is_oct e3);
          apply cons_scalar_inv in H as (a' & H & -> & Hx); (apply Step in H as (? & Hs); [ | eauto ]); (split; [ auto | ]); intros ?; apply scalars_cons; auto.
      - apply cons_scalar_inv in H as (a' & H & -> & Hx). apply Step in H as (? & Hs); [ | eauto ]. split; auto. intros ?. apply scalars_cons; auto. }
    destruct (e =? chr "x").
    { destruct r1 as [ | h1 [ | h2 r2 ] ]; try discriminate.
      apply cons_opt_inv in H as (x & a' & H & -> & Hx). apply Step in H as (? & Hs); [ | eauto ]. split; auto. intros ?. apply scalars_cons; auto. }
    destruct (e =? chr "u").
    { destruct r1 as [ | h1 [ | h2 [ | h3 [ | h4 r2 ] ] ] ]; try discriminate.
      apply cons_opt_inv in H as (x & a' & H & -> & Hx). apply Step in H as (? & Hs); [ | eauto ]. split; auto. intros ?. apply scalars_cons; auto. }
    destruct (e =? chr "U").
    { destruct r1 as [ | h1 [ | h2 [ | h3 [ | h4 [ | h5 [ | h6 [ | h7 [ | h8 r2 ] ] ] ] ] ] ] ]; try discriminate.
      apply cons_opt_inv in H as (x & a' & H & -> & Hx). apply Step in H as (? & Hs); [ | eauto ]. split; auto. intros ?. apply scalars_cons; auto. }
    destruct (e =? chr "N"); [ discriminate | ].
    apply cons1_inv in H as (a' & H & ->). apply cons1_inv in H as (a'' & H & ->). apply Step in H as (? & Hs); [ | eauto ]. split; auto.
    intros Hall. apply scalars_cons; [ reflexivity | ]. apply scalars_cons; auto. apply Hall. now right; left.
  - destruct (c =? q).
    + destruct long.
      * destruct r as [ | c2 [ | c3 r3 ] ]; try discriminate. destruct ((c2 =? q) && (c3 =? q)).
        { injection H as <- <-. split; [ | intros _ ch [] ]. exists c, [c2; c3]. reflexivity. }
        apply cons1_inv in H as (a' & H & ->). apply Step in H as (? & Hs); [ | apply tail_refl ]. split; auto.
        intros Hall. apply scalars_cons; auto. apply Hall. now left.
      * injection H as <- <-. split; [ apply after_cons | intros _ ch [] ].
    + destruct (negb long && ((c =? 10) || (c =? 13))); [ discriminate | ].
      apply cons1_inv in H as (a' & H & ->). apply Step in H as (? & Hs); [ | apply tail_refl ]. split; auto.
      intros Hall. apply scalars_cons; auto. apply Hall. now left.
Qed.

Lemma p_string_inv s a b : p_string s = Some (a, b) -> after b s /\ (scal s -> scal a).
Proof.
  unfold p_string. destruct s as [ | q r ]; [ discriminate | ]. destruct ((q =? 39) || (q =? 34)); [ | discriminate ].
  intros H.
  assert (Step : forall long r', tail_of r' r -> p_str long q r' = Some (a, b) -> after b (q :: r) /\ (scal (q :: r) -> scal a)).
  { intros long r' Ht Hp. eapply p_str_inv in Hp as (Ha & Hs); [ | apply Nat.le_refl ]. split.
    - apply after_cons2. apply tail_trans with r'; auto. now apply after_weak.
    - intros Hc. apply Hs. apply scalars_tail with (q :: r); auto. now apply tail_cons2. }
  destruct r as [ | q2 [ | q3 r3 ] ]; try (eapply Step; eauto; apply tail_refl).
  destruct ((q2 =? q) && (q3 =? q)); eapply Step; eauto; [ now exists [q2; q3] | apply tail_refl ].
Qed.

Lemma p_digits_tail ok : forall n s, (List.length s <= n)%nat -> tail_of (snd (p_digits ok s)) s.
Proof.
  induction n as [ | n IH ]; intros [ | c r ] Hn; cbn [List.length] in Hn; try lia; try apply tail_refl.
  cbn [p_digits]. destruct (ok c).
  - specialize (IH r ltac:(lia)). destruct (p_digits ok r). now apply tail_cons2.
  - destruct (c =? 95); [ | apply tail_refl ]. destruct r as [ | c2 r2 ]; [ apply tail_refl | ].
    destruct (ok c2); [ | apply tail_refl ]. cbn [List.length] in Hn. specialize (IH r2 ltac:(lia)). destruct (p_digits ok r2). now apply tail_cons2, tail_cons2.
Qed.

Lemma p_nat_after s n r : p_nat s = Some (n, r) -> after r s.
Proof.
  unfold p_nat. destruct s as [ | c s ]; [ discriminate | ].
  destruct (c =? 48).
  - pose proof (p_digits_tail (N.eqb 48) _ s (Nat.le_refl _)). destruct (p_digits (N.eqb 48) s). intros [= <- <-]. now apply after_cons2.
  - destruct (is_digit c); [ | discriminate ].
    pose proof (p_digits_tail is_digit _ s (Nat.le_refl _)). destruct (p_digits is_digit s). intros [= <- <-]. now apply after_cons2.
Qed.

Lemma p_int_after s : forall neg z r, p_int neg s = Some (z, r) -> after r s.
Proof.
  induction s as [ | c s IH ]; intros neg z r H; [ discriminate | ]. cbn [p_int] in H.
  destruct (c =? chr "-"); [ apply IH in H; now apply after_cons2, after_weak | ].
  destruct (c =? chr "+"); [ apply IH in H; now apply after_cons2, after_weak | ].
  destruct (is_blank c); [ apply IH in H; now apply after_cons2, after_weak | ].
  destruct (p_nat (c :: s)) as [ (n, rest) | ] eqn:E; [ | discriminate ]. apply p_nat_after in E. now injection H as _ <-.
Qed.

Lemma p_word_tail w : forall s r, p_word w s = Some r -> s = w ++ r.
Proof.
  induction w as [ | c w IH ]; intros s r H; cbn [p_word] in H; [ now injection H as -> | ].
  destruct s as [ | d s ]; [ discriminate | ]. destruct (N.eqb_spec c d); [ | discriminate ]. subst. apply IH in H. now subst.
Qed.

(** * The string literals inside a value *)
Fixpoint strings_of (v : value) : list text :=
  match v with
  | VString s => [s]
  | VTuple l | VList l | VSet l => flat_map strings_of l
  | VDict l => flat_map (fun p => strings_of (fst p) ++ strings_of (snd p)) l
  | VInteger _ | VBool _ | VNone => []
  end.
Definition strings_ok (v : value) : Prop := forall s, In s (strings_of v) -> scal s.
Definition all_strings_ok (l : list value) : Prop := forall v, In v l -> strings_ok v.
Definition pairs_ok (l : list (value * value)) : Prop := forall k v, In (k, v) l -> strings_ok k /\ strings_ok v.

Lemma all_ok_cons v l : strings_ok v -> all_strings_ok l -> all_strings_ok (v :: l).
Proof. intros H1 H2 x [ <- | H ]; auto. Qed.
Lemma pairs_ok_cons k v l : strings_ok k -> strings_ok v -> pairs_ok l -> pairs_ok ((k, v) :: l).
Proof. intros H1 H2 H3 a b [ [= <- <-] | H ]; auto. Qed.
Lemma flat_strings l s : In s (flat_map strings_of l) -> all_strings_ok l -> scal s.
Proof. intros H Hl. apply in_flat_map in H as (v & Hv & Hs). exact (Hl v Hv s Hs). Qed.
Lemma tuple_ok l : all_strings_ok l -> strings_ok (VTuple l).
Proof. intros H s Hs. eapply flat_strings; eauto. Qed.
Lemma list_ok l : all_strings_ok l -> strings_ok (VList l).
Proof. intros H s Hs. eapply flat_strings; eauto. Qed.
Lemma set_ok l : all_strings_ok l -> strings_ok (VSet l).
Proof. intros H s Hs. eapply flat_strings; eauto. Qed.
Lemma dict_ok l : pairs_ok l -> strings_ok (VDict l).
Proof.
  intros H s Hs. cbn [strings_of] in Hs. apply in_flat_map in Hs as ((k, v) & Hv & Hs). cbn [fst snd] in Hs.
  apply in_app_iff in Hs. destruct (H k v Hv) as (H1 & H2). destruct Hs; [ now apply H1 | now apply H2 ].
Qed.
Lemma string_ok s : scal s -> strings_ok (VString s).
Proof. intros H x [ <- | [] ]. exact H. Qed.
Lemma bool_ok b : strings_ok (VBool b). Proof. intros x []. Qed.
Lemma int_ok b : strings_ok (VInteger b). Proof. intros x []. Qed.
Lemma none_ok : strings_ok VNone. Proof. intros x []. Qed.
Lemma nil_ok : all_strings_ok []. Proof. intros x []. Qed.
Lemma nil_pairs_ok : pairs_ok []. Proof. intros k v []. Qed.

Definition good_value (f : nat) : Prop := forall s v r, p_value f s = Some (v, r) -> after r s /\ (scal s -> strings_ok v).
Definition good_items (f : nat) : Prop := forall close s v r, p_items f close s = Some (v, r) -> after r s /\ (scal s -> all_strings_ok v).
Definition good_dict (f : nat) : Prop := forall s v r, p_dict f s = Some (v, r) -> after r s /\ (scal s -> pairs_ok v).

Lemma skipped a b s : skip_ws a = b -> after a s -> after b s.
Proof. intros <- H. apply tail_after with a; auto. apply skip_ws_tail. Qed.
Lemma skipped_cons a c b s : skip_ws a = c :: b -> after a s -> after b s.
Proof. intros E H. apply tail_after with (c :: b); [ apply tail_cons | ]. eapply skipped; eauto. Qed.
Lemma after_trans a b c : after a b -> after b c -> after a c.
Proof. intros H1 H2. apply tail_after with b; auto. now apply after_weak. Qed.
Lemma skipped_tail a b s : skip_ws a = b -> tail_of a s -> tail_of b s.
Proof. intros <- H. apply tail_trans with a; auto. apply skip_ws_tail. Qed.
Lemma scalars_after a b : after a b -> scal b -> scal a.
Proof. intros H. apply scalars_tail. now apply after_weak. Qed.

Lemma value_step f : good_value f -> good_items f -> good_dict f -> good_value (S f).
Proof.
  intros HV HI HD s v r H. cbn [p_value] in H. destruct s as [ | c r0 ]; [ discriminate | ].
  assert (A0 : after r0 (c :: r0)) by apply after_cons.
  destruct ((c =? 39) || (c =? 34)).
  { destruct (p_string (c :: r0)) as [ (t, rest) | ] eqn:E; [ | discriminate ]. injection H as <- <-.
    apply p_string_inv in E as (A & S). split; auto. intros. now apply string_ok, S. }
  destruct ((c =? chr "u") || (c =? chr "U")).
  { destruct (p_string r0) as [ (t, rest) | ] eqn:E; [ | discriminate ]. injection H as <- <-.
    apply p_string_inv in E as (A & S). split; [ eapply after_trans; eauto | ]. intros Hs. apply string_ok, S. eapply scalars_after; eauto. }
  destruct (is_digit c || (c =? chr "+") || (c =? chr "-")).
  { destruct (p_int false (c :: r0)) as [ (t, rest) | ] eqn:E; [ | discriminate ]. injection H as <- <-.
    apply p_int_after in E. split; auto. intros _. apply int_ok. }
  destruct (c =? chr "(").
  { destruct (skip_ws r0) as [ | c1 r1 ] eqn:E0; [ discriminate | ].
    pose proof (skipped _ _ _ E0 A0) as A1.
    destruct (c1 =? chr ")"). { injection H as <- <-. split; [ eapply skipped_cons; eauto | intros _; apply tuple_ok, nil_ok ]. }
    destruct (p_value f (c1 :: r1)) as [ (v1, r2) | ] eqn:E1; [ | discriminate ].
    apply HV in E1 as (A2 & S1). pose proof (after_trans _ _ _ A2 A1) as A3.
    destruct (skip_ws r2) as [ | c3 r3 ] eqn:E2; [ discriminate | ]. pose proof (skipped_cons _ _ _ _ E2 A3) as A4.
    destruct (c3 =? chr ","); [ | discriminate ].
    destruct (p_items f (chr ")") (skip_ws r3)) as [ (vs, r4) | ] eqn:E3; [ | discriminate ]. injection H as <- <-.
    pose proof (skipped _ _ _ eq_refl A4) as A5. apply HI in E3 as (A6 & S2). split; [ eapply after_trans; eauto | ].
    intros Hs. apply tuple_ok, all_ok_cons; [ apply S1 | apply S2 ]; eapply scalars_after; eauto. }
  destruct (c =? chr "[").
  { destruct (p_items f (chr "]") (skip_ws r0)) as [ (vs, r4) | ] eqn:E3; [ | discriminate ]. injection H as <- <-.
    pose proof (skipped _ _ _ eq_refl A0) as A5. apply HI in E3 as (A6 & S2). split; [ eapply after_trans; eauto | ].
    intros Hs. apply list_ok, S2. eapply scalars_after; eauto. }
  destruct (c =? chr "{").
  { destruct (skip_ws r0) as [ | c1 r1 ] eqn:E0; [ discriminate | ].
    pose proof (skipped _ _ _ E0 A0) as A1.
    destruct (c1 =? chr "}"). { injection H as <- <-. split; [ eapply skipped_cons; eauto | intros _; apply dict_ok, nil_pairs_ok ]. }
    destruct (p_value f (c1 :: r1)) as [ (k, r2) | ] eqn:E1; [ | discriminate ].
    apply HV in E1 as (A2 & S1). pose proof (after_trans _ _ _ A2 A1) as A3.
    destruct (skip_ws r2) as [ | c3 r3 ] eqn:E2; [ discriminate | ]. pose proof (skipped_cons _ _ _ _ E2 A3) as A4.
    pose proof (skipped _ _ _ eq_refl A4) as A5.
    destruct (c3 =? chr ":").
    - destruct (p_value f (skip_ws r3)) as [ (v1, r4) | ] eqn:E3; [ | discriminate ].
      apply HV in E3 as (A6 & S3). pose proof (after_trans _ _ _ A6 A5) as A7.
      destruct (skip_ws r4) as [ | c5 r5 ] eqn:E4; [ discriminate | ]. pose proof (skipped_cons _ _ _ _ E4 A7) as A8.
      destruct (c5 =? chr "}").
      { injection H as <- <-. split; auto. intros Hs. apply dict_ok, pairs_ok_cons; [ apply S1 | apply S3 | apply nil_pairs_ok ]; eapply scalars_after; eauto. }
      destruct (c5 =? chr ","); [ | discriminate ].
      destruct (p_dict f (skip_ws r5)) as [ (kvs, r6) | ] eqn:E5; [ | discriminate ]. injection H as <- <-.
      pose proof (skipped _ _ _ eq_refl A8) as A9. apply HD in E5 as (A10 & S5). split; [ eapply after_trans; eauto | ].
      intros Hs. apply dict_ok, pairs_ok_cons; [ apply S1 | apply S3 | apply S5 ]; eapply scalars_after; eauto.
    - destruct (c3 =? chr "}").
      { injection H as <- <-. split; auto. intros Hs. apply set_ok, all_ok_cons; [ apply S1 | apply nil_ok ]; eapply scalars_after; eauto. }
      destruct (c3 =? chr ","); [ | discriminate ].
      destruct (p_items f (chr "}") (skip_ws r3)) as [ (vs, r4) | ] eqn:E3; [ | discriminate ]. injection H as <- <-.
      apply HI in E3 as (A6 & S2). split; [ eapply after_trans; eauto | ].
      intros Hs. apply set_ok, all_ok_cons; [ apply S1 | apply S2 ]; eapply scalars_after; eauto. }
  assert (W : forall w, w <> [] -> forall x, p_word w (c :: r0) = Some x -> after x (c :: r0)).
  { intros w Hw x Hx. apply p_word_tail in Hx. destruct w as [ | d w ]; [ congruence | ]. rewrite Hx. now exists d, w. }
  destruct (c =? chr "T").
  { destruct (p_word (lit "True") (c :: r0)) eqn:E; [ | discriminate ]. injection H as <- <-. apply W in E; [ | discriminate ]. split; auto. intros _. apply bool_ok. }
  destruct (c =? chr "F").
  { destruct (p_word (lit "False") (c :: r0)) eqn:E; [ | discriminate ]. injection H as <- <-. apply W in E; [ | discriminate ]. split; auto. intros _. apply bool_ok. }
  destruct (c =? chr "N"); [ | discriminate ].
  destruct (p_word (lit "None") (c :: r0)) eqn:E; [ | discriminate ]. injection H as <- <-. apply W in E; [ | discriminate ]. split; auto. intros _. apply none_ok.
Qed.

Lemma items_step f : good_value f -> good_items f -> good_items (S f).
Proof.
  intros HV HI close s v r H. cbn [p_items] in H. destruct s as [ | c r0 ]; [ discriminate | ].
  destruct (c =? close). { injection H as <- <-. split; [ apply after_cons | intros _; apply nil_ok ]. }
  destruct (p_value f (c :: r0)) as [ (v1, r1) | ] eqn:E1; [ | discriminate ]. apply HV in E1 as (A1 & S1).
  destruct (skip_ws r1) as [ | c2 r2 ] eqn:E2; [ discriminate | ]. pose proof (skipped_cons _ _ _ _ E2 A1) as A2.
  destruct (c2 =? close). { injection H as <- <-. split; auto. intros Hs. apply all_ok_cons; [ now apply S1 | apply nil_ok ]. }
  destruct (c2 =? chr ","); [ | discriminate ].
  destruct (p_items f close (skip_ws r2)) as [ (vs, r3) | ] eqn:E3; [ | discriminate ]. injection H as <- <-.
  pose proof (skipped _ _ _ eq_refl A2) as A3. apply HI in E3 as (A4 & S2). split; [ eapply after_trans; eauto | ].
  intros Hs. apply all_ok_cons; [ now apply S1 | apply S2; eapply scalars_after; eauto ].
Qed.

Lemma dict_step f : good_value f -> good_dict f -> good_dict (S f).
Proof.
  intros HV HD s v r H. cbn [p_dict] in H. destruct s as [ | c r0 ]; [ discriminate | ].
  destruct (c =? chr "}"). { injection H as <- <-. split; [ apply after_cons | intros _; apply nil_pairs_ok ]. }
  destruct (p_value f (c :: r0)) as [ (k, r1) | ] eqn:E1; [ | discriminate ]. apply HV in E1 as (A1 & S1).
  destruct (skip_ws r1) as [ | c2 r2 ] eqn:E2; [ discriminate | ]. pose proof (skipped_cons _ _ _ _ E2 A1) as A2.
  destruct (c2 =? chr ":"); [ | discriminate ].
  pose proof (skipped _ _ _ eq_refl A2) as A3.
  destruct (p_value f (skip_ws r2)) as [ (v1, r3) | ] eqn:E3; [ | discriminate ]. apply HV in E3 as (A4 & S2).
  pose proof (after_trans _ _ _ A4 A3) as A5.
  destruct (skip_ws r3) as [ | c4 r4 ] eqn:E4; [ discriminate | ]. pose proof (skipped_cons _ _ _ _ E4 A5) as A6.
  destruct (c4 =? chr "}"). { injection H as <- <-. split; auto. intros Hs. apply pairs_ok_cons; [ now apply S1 | apply S2; eapply scalars_after; eauto | apply nil_pairs_ok ]. }
  destruct (c4 =? chr ","); [ | discriminate ].
  destruct (p_dict f (skip_ws r4)) as [ (vs, r5) | ] eqn:E5; [ | discriminate ]. injection H as <- <-.
  pose proof (skipped _ _ _ eq_refl A6) as A7. apply HD in E5 as (A8 & S3). split; [ eapply after_trans; eauto | ].
  intros Hs. apply pairs_ok_cons; [ now apply S1 | apply S2; eapply scalars_after; eauto | apply S3; eapply scalars_after; eauto ].
Qed.

Lemma all_good f : good_value f /\ good_items f /\ good_dict f.
Proof.
  induction f as [ | f (HV & HI & HD) ].
  - split; [ | split ]; [ intros s v r H | intros close s v r H | intros s v r H ]; discriminate.
  - split; [ | split ]; [ now apply value_step | now apply items_step | now apply dict_step ].
Qed.

Lemma parse_literal_scalars s v : scal s -> parse_literal s = Some v -> strings_ok v.
Proof.
  intros Hs H. unfold parse_literal in H. destruct (p_value _ (skip_ws s)) as [ (x, rest) | ] eqn:E; [ | discriminate ].
  destruct (skip_ws rest); [ | discriminate ]. injection H as <-. apply (proj1 (all_good _)) in E as (_ & E). apply E.
  eapply scalars_tail; [ apply skip_ws_tail | exact Hs ].
Qed.

(** * The fuel is enough: any larger amount gives the same answer *)
Lemma fuel_enough : forall f,
  (forall s f', (2 * List.length s + 1 <= f)%nat -> (2 * List.length s + 1 <= f')%nat -> p_value f s = p_value f' s)
  /\ (forall close s f', (2 * List.length s + 2 <= f)%nat -> (2 * List.length s + 2 <= f')%nat -> p_items f close s = p_items f' close s)
  /\ (forall s f', (2 * List.length s + 2 <= f)%nat -> (2 * List.length s + 2 <= f')%nat -> p_dict f s = p_dict f' s).
Proof.
  induction f as [ | f (IV & II & ID) ]; [ split; [ | split ]; intros; lia | ].
  split; [ | split ].
  - intros s f' H H'. destruct f' as [ | f' ]; [ lia | ]. cbn [p_value]. destruct s as [ | c r0 ]; [ reflexivity | ]. cbn [List.length] in *.
    assert (V : forall x, after x (c :: r0) -> p_value f x = p_value f' x).
    { intros x Hx. apply after_len in Hx. cbn [List.length] in Hx. apply IV; lia. }
    assert (I : forall close x, after x (c :: r0) -> p_items f close x = p_items f' close x).
    { intros close x Hx. apply after_len in Hx. cbn [List.length] in Hx. apply II; lia. }
    assert (D : forall x, after x (c :: r0) -> p_dict f x = p_dict f' x).
    { intros x Hx. apply after_len in Hx. cbn [List.length] in Hx. apply ID; lia. }
    assert (A0 : after r0 (c :: r0)) by apply after_cons.
    destruct ((c =? 39) || (c =? 34)); [ reflexivity | ]. destruct ((c =? chr "u") || (c =? chr "U")); [ reflexivity | ].
    destruct (is_digit c || (c =? chr "+") || (c =? chr "-")); [ reflexivity | ].
    destruct (c =? chr "(").
    { destruct (skip_ws r0) as [ | c1 r1 ] eqn:E0; [ reflexivity | ]. pose proof (skipped _ _ _ E0 A0) as A1.
      destruct (c1 =? chr ")"); [ reflexivity | ]. rewrite <- V by auto.
      destruct (p_value f (c1 :: r1)) as [ (v1, r2) | ] eqn:E1; [ | reflexivity ].
      apply (proj1 (all_good _)) in E1 as (A2 & _). pose proof (after_trans _ _ _ A2 A1) as A3.
      destruct (skip_ws r2) as [ | c3 r3 ] eqn:E2; [ reflexivity | ]. pose proof (skipped_cons _ _ _ _ E2 A3) as A4.
      rewrite <- I; [ reflexivity | eapply skipped; eauto ]. }
    destruct (c =? chr "["). { rewrite <- I; [ reflexivity | eapply skipped; eauto ]. }
    destruct (c =? chr "{"); [ | reflexivity ].
    destruct (skip_ws r0) as [ | c1 r1 ] eqn:E0; [ reflexivity | ]. pose proof (skipped _ _ _ E0 A0) as A1.
    destruct (c1 =? chr "}"); [ reflexivity | ]. rewrite <- V by auto.
    destruct (p_value f (c1 :: r1)) as [ (v1, r2) | ] eqn:E1; [ | reflexivity ].
    apply (proj1 (all_good _)) in E1 as (A2 & _). pose proof (after_trans _ _ _ A2 A1) as A3.
    destruct (skip_ws r2) as [ | c3 r3 ] eqn:E2; [ reflexivity | ]. pose proof (skipped_cons _ _ _ _ E2 A3) as A4.
    pose proof (skipped _ _ _ eq_refl A4) as A5.
    destruct (c3 =? chr ":").
    + rewrite <- V by auto. destruct (p_value f (skip_ws r3)) as [ (v2, r4) | ] eqn:E3; [ | reflexivity ].
      apply (proj1 (all_good _)) in E3 as (A6 & _). pose proof (after_trans _ _ _ A6 A5) as A7.
      destruct (skip_ws r4) as [ | c5 r5 ] eqn:E4; [ reflexivity | ]. pose proof (skipped_cons _ _ _ _ E4 A7) as A8.
      rewrite <- D; [ reflexivity | eapply skipped; eauto ].
    + rewrite <- I; [ reflexivity | auto ].
  - intros close s f' H H'. destruct f' as [ | f' ]; [ lia | ]. cbn [p_items]. destruct s as [ | c r0 ]; [ reflexivity | ]. cbn [List.length] in *.
    destruct (c =? close); [ reflexivity | ]. rewrite <- (IV (c :: r0) f') by (cbn [List.length]; lia).
    destruct (p_value f (c :: r0)) as [ (v1, r1) | ] eqn:E1; [ | reflexivity ].
    apply (proj1 (all_good _)) in E1 as (A1 & _).
    destruct (skip_ws r1) as [ | c2 r2 ] eqn:E2; [ reflexivity | ]. pose proof (skipped_cons _ _ _ _ E2 A1) as A2.
    pose proof (skipped _ _ _ eq_refl A2) as A3. apply after_len in A3. cbn [List.length] in A3. rewrite <- (II close (skip_ws r2) f') by lia. reflexivity.
  - intros s f' H H'. destruct f' as [ | f' ]; [ lia | ]. cbn [p_dict]. destruct s as [ | c r0 ]; [ reflexivity | ]. cbn [List.length] in *.
    destruct (c =? chr "}"); [ reflexivity | ]. rewrite <- (IV (c :: r0) f') by (cbn [List.length]; lia).
    destruct (p_value f (c :: r0)) as [ (v1, r1) | ] eqn:E1; [ | reflexivity ].
    apply (proj1 (all_good _)) in E1 as (A1 & _).
    destruct (skip_ws r1) as [ | c2 r2 ] eqn:E2; [ reflexivity | ]. pose proof (skipped_cons _ _ _ _ E2 A1) as A2.
    pose proof (skipped _ _ _ eq_refl A2) as A3. pose proof (after_len _ _ A3) as L3. cbn [List.length] in L3.
    rewrite <- (IV (skip_ws r2) f') by lia.
    destruct (c2 =? chr ":"); [ | reflexivity ].
    destruct (p_value f (skip_ws r2)) as [ (v2, r3) | ] eqn:E3; [ | reflexivity ].
    apply (proj1 (all_good _)) in E3 as (A4 & _). pose proof (after_trans _ _ _ A4 A3) as A5.
    destruct (skip_ws r3) as [ | c4 r4 ] eqn:E4; [ reflexivity | ]. pose proof (skipped_cons _ _ _ _ E4 A5) as A6.
    pose proof (skipped _ _ _ eq_refl A6) as A7. apply after_len in A7. cbn [List.length] in A7. rewrite <- (ID (skip_ws r4) f') by lia. reflexivity.
Qed.

Lemma parse_literal_fuel s f : (2 * List.length s + 2 <= f)%nat ->
  parse_literal s = match p_value f (skip_ws s) with
                    | Some (v, rest) => match skip_ws rest with [] => Some v | _ => None end
                    | None => None
                    end.
Proof.
  intros H. unfold parse_literal. pose proof (tail_len _ _ (skip_ws_tail s)).
  rewrite (proj1 (fuel_enough (2 * List.length s + 2)) (skip_ws s) f) by lia. reflexivity.
Qed.
