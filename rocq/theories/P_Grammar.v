(** The literal parser accepts exactly the texts of the grammar [S_Python]. *)
From Verif Require Import M_Base M_Text M_PyLit S_Text S_Python P_Base P_Text P_PyLit P_Parse T_Text.
Open Scope N_scope.

(** * Blanks *)
Lemma blank_iff c : is_blank c = true <-> blank c.
Proof. unfold is_blank, blank. lia. Qed.
Lemma blank_no c : ~ blank c -> is_blank c = false.
Proof. intros H. destruct (is_blank c) eqn:E; auto. now apply blank_iff in E. Qed.
Lemma spaces_blanks b : spaces b -> blanks b.
Proof. intros H. eapply Forall_impl; [ | exact H ]. intros c. apply blank_iff. Qed.
Lemma skip_ws_split s : exists b, spaces b /\ s = b ++ skip_ws s.
Proof.
  induction s as [ | c s (b & Hb & E) ]; [ exists []; split; [ constructor | reflexivity ] | ].
  cbn [skip_ws]. destruct (is_blank c) eqn:Ec.
  - exists (c :: b). split; [ constructor; auto; now apply blank_iff | ]. cbn [app]. now rewrite <- E.
  - exists []. split; [ constructor | reflexivity ].
Qed.

(** * Numeric escapes *)
Lemma hex_val_digit c d : hex_val c = Some d <-> digit c d /\ d < 16.
Proof.
  unfold hex_val, digit.
  destruct ((48 <=? c) && (c <=? 57)) eqn:E1; [ split; [ intros [= <-]; lia | intros; f_equal; lia ] | ].
  destruct ((65 <=? c) && (c <=? 70)) eqn:E2; [ split; [ intros [= <-]; lia | intros; f_equal; lia ] | ].
  destruct ((97 <=? c) && (c <=? 102)) eqn:E3; [ split; [ intros [= <-]; lia | intros; f_equal; lia ] | ].
  split; [ discriminate | lia ].
Qed.
Lemma hex_digits_snoc ds c : hex_digits (ds ++ [c]) = match hex_digits ds, hex_val c with Some a, Some d => Some (a * 16 + d) | _, _ => None end.
Proof. unfold hex_digits. now rewrite fold_left_app. Qed.
Lemma hex_digits_iff ds : forall n, hex_digits ds = Some n <-> in_base 16 ds n.
Proof.
  induction ds as [ | c ds IH ] using rev_ind; intros n.
  - split; [ intros [= <-]; constructor | ]. intros H. inversion H; [ reflexivity | ]. now destruct ds.
  - rewrite hex_digits_snoc. split.
    + destruct (hex_digits ds) as [ a | ]; [ | discriminate ]. destruct (hex_val c) as [ d | ] eqn:E; [ | discriminate ].
      intros [= <-]. apply hex_val_digit in E as (E & L). rewrite N.mul_comm. constructor; auto. now apply IH.
    + intros H. inversion H as [ E | ds' n' c' d H1 H2 H3 E1 E2 ]; [ now destruct ds | ].
      apply app_inj_tail in E1 as (-> & ->). apply IH in H1. rewrite H1. rewrite (proj2 (hex_val_digit c d)) by auto. f_equal. lia.
Qed.
Lemma in_base_inv base ds c n : in_base base (ds ++ [c]) n -> exists n' d, in_base base ds n' /\ digit c d /\ d < base /\ n = base * n' + d.
Proof.
  intros H. inversion H as [ E | ds' n' c' d H1 H2 H3 E1 E2 ]; [ now destruct ds | ].
  apply app_inj_tail in E1 as (-> & ->). now exists n', d.
Qed.
Lemma in_base_nil_inv base n : in_base base [] n -> n = 0.
Proof. intros H. inversion H; auto. now destruct ds. Qed.
Lemma is_oct_iff c : is_oct c = true <-> octal_digit c.
Proof. unfold is_oct, octal_digit. lia. Qed.
Lemma oct_digit c d : d < 8 -> digit c d -> octal_digit c /\ d = c - 48.
Proof. unfold digit, octal_digit. lia. Qed.
Lemma digit_oct c : octal_digit c -> digit c (c - 48) /\ c - 48 < 8.
Proof. unfold digit, octal_digit. lia. Qed.
Lemma in_base8_all ds n : in_base 8 ds n -> Forall octal_digit ds.
Proof. induction 1; [ constructor | ]. apply Forall_app. split; auto. constructor; [ | constructor ]. now apply (oct_digit c d). Qed.
Lemma oct1 a n : in_base 8 [a] n <-> octal_digit a /\ n = a - 48.
Proof.
  split.
  - intros H. apply (in_base_inv 8 []) in H as (n' & d & H & Hd & L & ->). apply in_base_nil_inv in H as ->. apply oct_digit in Hd as (? & ->); [ | assumption ]. split; [ assumption | lia ].
  - intros (H & ->). apply digit_oct in H as (H & L). replace (a - 48) with (8 * 0 + (a - 48)) by lia. apply (in_base_snoc 8 []); auto. constructor.
Qed.
Lemma oct2 a b n : in_base 8 [a; b] n <-> octal_digit a /\ octal_digit b /\ n = (a - 48) * 8 + (b - 48).
Proof.
  split.
  - intros H. apply (in_base_inv 8 [a]) in H as (n' & d & H & Hd & L & ->). apply oct1 in H as (? & ->). apply oct_digit in Hd as (? & ->); [ | assumption ]. repeat (split; [ assumption | ]). lia.
  - intros (Ha & H & ->). apply digit_oct in H as (H & L). rewrite (N.mul_comm _ 8). apply (in_base_snoc 8 [a]); auto. now apply oct1.
Qed.
Lemma oct3 a b c n : in_base 8 [a; b; c] n <-> octal_digit a /\ octal_digit b /\ octal_digit c /\ n = (a - 48) * 64 + (b - 48) * 8 + (c - 48).
Proof.
  split.
  - intros H. apply (in_base_inv 8 [a; b]) in H as (n' & d & H & Hd & L & ->). apply oct2 in H as (? & ? & ->). apply oct_digit in Hd as (? & ->); [ | assumption ]. repeat (split; [ assumption | ]). lia.
  - intros (Ha & Hb & H & ->). apply digit_oct in H as (H & L).
    replace ((a - 48) * 64 + (b - 48) * 8 + (c - 48)) with (8 * ((a - 48) * 8 + (b - 48)) + (c - 48)) by lia.
    apply (in_base_snoc 8 [a; b]); auto. now apply oct2.
Qed.

Lemma simple_escape_iff e x : simple_escape e = Some x <-> In (e, x) simple_escapes.
Proof.
  unfold simple_escape, simple_escapes. cbn [In]. split.
  - intros H. repeat match type of H with (if ?b then _ else _) = _ => destruct b eqn:?; [ apply N.eqb_eq in Heqb; injection H as <-; subst; tauto | clear Heqb ] end. discriminate.
  - intros H. repeat (destruct H as [ [= <- <-] | H ]; [ reflexivity | ]). destruct H.
Qed.
Lemma simple_escape_none e : simple_escape e = None <-> ~ In e (map fst simple_escapes).
Proof.
  split.
  - intros H Hin. apply in_map_iff in Hin as ((e', x) & E & Hin). cbn [fst] in E. subst e'. apply simple_escape_iff in Hin. congruence.
  - intros H. destruct (simple_escape e) as [ x | ] eqn:E; auto. apply simple_escape_iff in E. destruct H. now apply (in_map fst) in E.
Qed.
Lemma escape_characters_spec e : ~ In e escape_characters <->
  simple_escape e = None /\ e <> 10 /\ ~ octal_digit e /\ e <> chr "x" /\ e <> chr "u" /\ e <> chr "U" /\ e <> chr "N".
Proof.
  unfold escape_characters. rewrite !in_app_iff, simple_escape_none. unfold octal_digit. unfold hex_escapes. cbn [map fst].
  change (lit "01234567") with [48; 49; 50; 51; 52; 53; 54; 55]. cbn [In]. split.
  - intros H. repeat split; try (intros E; apply H; lia || (subst; tauto)).
  - intros (H1 & H2 & H3 & H4 & H5 & H6 & H7) [ H | [ H | [ H | H ] ] ]; [ now apply H1 | | lia | ]; intuition congruence.
Qed.

(** * Strings *)
Definition quote (q : N) : Prop := q = 39 \/ q = 34.
Lemma scalar_byte n : n < 512 -> is_scalar n = true.
Proof. intros H. unfold is_scalar, is_surrogate. lia. Qed.
Lemma string_rest_length long q S s : string_rest long q S s -> (List.length (quotes long q) <= List.length S)%nat.
Proof. induction 1; [ auto | ]. rewrite app_length. lia. Qed.
Lemma item_nonempty long q item xs : string_item long q item xs -> item <> [].
Proof. destruct 1; discriminate. Qed.

(** One step of the parser. *)
Lemma p_str_escape long q e r1 : p_str long q (backslash :: e :: r1) =
  match simple_escape e with
  | Some x => cons1 x (p_str long q r1)
  | None =>
    if e =? 10 then p_str long q r1
    else if is_oct e then
      match r1 with
      | e2 :: r2 =>
        if is_oct e2 then
          match r2 with
          | e3 :: r3 =>
            if is_oct e3 then cons_scalar ((e - 48) * 64 + (e2 - 48) * 8 + (e3 - 48)) (p_str long q r3)
            else cons_scalar ((e - 48) * 8 + (e2 - 48)) (p_str long q r2)
          | [] => None
          end
        else cons_scalar (e - 48) (p_str long q r1)
      | [] => None
      end
    else if e =? chr "x" then match r1 with h1 :: h2 :: r2 => cons_opt (hex_digits [h1; h2]) (p_str long q r2) | _ => None end
    else if e =? chr "u" then match r1 with h1 :: h2 :: h3 :: h4 :: r2 => cons_opt (hex_digits [h1; h2; h3; h4]) (p_str long q r2) | _ => None end
    else if e =? chr "U" then
      match r1 with
      | h1 :: h2 :: h3 :: h4 :: h5 :: h6 :: h7 :: h8 :: r2 => cons_opt (hex_digits [h1; h2; h3; h4; h5; h6; h7; h8]) (p_str long q r2)
      | _ => None
      end
    else if e =? chr "N" then None
    else cons1 92 (cons1 e (p_str long q r1))
  end.
Proof. reflexivity. Qed.
Lemma p_str_plain long q c r : c <> 92 -> p_str long q (c :: r) =
  if c =? q then
    if long then match r with c2 :: c3 :: r3 => if (c2 =? q) && (c3 =? q) then Some ([], r3) else cons1 c (p_str long q r) | _ => None end
    else Some ([], r)
  else if negb long && ((c =? 10) || (c =? 13)) then None
  else cons1 c (p_str long q r).
Proof. intros H. cbn [p_str]. now replace (c =? 92) with false by lia. Qed.

(** A step of the parser over an item, given what it does on the rest. *)
Lemma p_str_item long q item xs S s rest : quote q -> string_item long q item xs -> octal_complete item S ->
  (List.length (quotes long q) <= List.length S)%nat -> (long = true -> forall r, item ++ S <> [q; q; q] ++ r) ->
  p_str long q (S ++ rest) = Some (s, rest) -> p_str long q (item ++ S ++ rest) = Some (xs ++ s, rest).
Proof.
  intros Hq Hi Ho Hl Hl3 IH. unfold backslash in *.
  assert (Hs : S <> []) by (intros ->; destruct long; cbn in Hl; lia).
  destruct Hi as [ c Hc Hr | e x He | | ds n Hd Hn | e k ds n He Hd Hk Hn | e He ].
  - cbn [app]. rewrite p_str_plain by assumption.
    destruct (N.eqb_spec c q) as [ -> | Hcq ].
    + destruct long; [ | destruct Hr; auto; lia ].
      cbn [quotes List.length] in Hl. destruct S as [ | c2 [ | c3 r3 ] ]; cbn [List.length] in Hl; try lia.
      cbn [app] in *. rewrite IH. destruct ((c2 =? q) && (c3 =? q)) eqn:E; [ | reflexivity ].
      destruct (Hl3 eq_refl r3). replace c2 with q by lia. now replace c3 with q by lia.
    + rewrite IH. destruct long; [ reflexivity | ]. destruct Hr as (_ & H10 & H13); auto.
      replace ((c =? 10) || (c =? 13)) with false by lia. reflexivity.
  - cbn [app]. rewrite p_str_escape. apply simple_escape_iff in He. rewrite He, IH. reflexivity.
  - cbn [app]. rewrite p_str_escape. change (simple_escape 10) with (@None N). change (10 =? 10) with true. cbv iota. exact IH.
  - assert (O : forall e, octal_digit e -> simple_escape e = None /\ (e =? 10) = false /\ is_oct e = true).
    { intros e He. rewrite is_oct_iff. unfold octal_digit in *. repeat split; try lia. unfold simple_escape.
      repeat match goal with |- (if ?b then _ else _) = _ => replace b with false by (symmetry; apply N.eqb_neq; unfold chr; cbn; lia) end. reflexivity. }
    assert (Nx : forall c r, S = c :: r -> 1 <= lenN ds < 3 -> is_oct c = false).
    { intros c r E L. destruct (is_oct c) eqn:Ec; auto. apply is_oct_iff in Ec. exfalso. eapply Ho; eauto. }
    destruct ds as [ | a [ | b [ | c [ | ] ] ] ]; unfold lenN in *; cbn [List.length] in *; try lia.
    + apply oct1 in Hd as (Ha & ->). destruct (O a Ha) as (O1 & O2 & O3). cbn [app]. rewrite p_str_escape.
      rewrite O1, O2, O3. destruct S as [ | e2 r2 ]; [ congruence | ]. cbn [app] in *. rewrite (Nx e2 r2) by (auto; lia). rewrite IH.
      unfold cons_scalar. rewrite scalar_byte by (unfold octal_digit in *; lia). reflexivity.
    + apply oct2 in Hd as (Ha & Hb & ->). destruct (O a Ha) as (O1 & O2 & O3). cbn [app]. rewrite p_str_escape.
      rewrite O1, O2, O3. rewrite (proj2 (is_oct_iff b)) by auto. destruct S as [ | e2 r2 ]; [ congruence | ]. cbn [app] in *. rewrite (Nx e2 r2) by (auto; lia). rewrite IH.
      unfold cons_scalar. rewrite scalar_byte by (unfold octal_digit in *; lia). reflexivity.
    + apply oct3 in Hd as (Ha & Hb & Hc & ->). destruct (O a Ha) as (O1 & O2 & O3). cbn [app]. rewrite p_str_escape.
      rewrite O1, O2, O3. rewrite (proj2 (is_oct_iff b)), (proj2 (is_oct_iff c)) by auto. cbn [app] in *. rewrite IH.
      unfold cons_scalar. rewrite scalar_byte by (unfold octal_digit in *; lia). reflexivity.
  - apply hex_digits_iff in Hd. unfold lenN in Hk. unfold hex_escapes in He. change scalar_value with is_scalar in Hn.
    destruct He as [ [= <- <-] | [ [= <- <-] | [ [= <- <-] | [] ] ] ].
    + destruct ds as [ | h1 [ | h2 [ | ] ] ]; cbn [List.length] in Hk; try lia.
      cbn [app]. rewrite p_str_escape. change (simple_escape (chr "x")) with (@None N). change (chr "x" =? 10) with false. change (is_oct (chr "x")) with false.
      change (chr "x" =? chr "x") with true. cbv iota. rewrite Hd, IH. unfold cons_opt, cons_scalar. now rewrite Hn.
    + destruct ds as [ | h1 [ | h2 [ | h3 [ | h4 [ | ] ] ] ] ]; cbn [List.length] in Hk; try lia.
      cbn [app]. rewrite p_str_escape. change (simple_escape (chr "u")) with (@None N). change (chr "u" =? 10) with false. change (is_oct (chr "u")) with false.
      change (chr "u" =? chr "x") with false. change (chr "u" =? chr "u") with true. cbv iota. rewrite Hd, IH. unfold cons_opt, cons_scalar. now rewrite Hn.
    + destruct ds as [ | h1 [ | h2 [ | h3 [ | h4 [ | h5 [ | h6 [ | h7 [ | h8 [ | ] ] ] ] ] ] ] ] ]; cbn [List.length] in Hk; try lia.
      cbn [app]. rewrite p_str_escape. change (simple_escape (chr "U")) with (@None N). change (chr "U" =? 10) with false. change (is_oct (chr "U")) with false.
      change (chr "U" =? chr "x") with false. change (chr "U" =? chr "u") with false. change (chr "U" =? chr "U") with true. cbv iota. rewrite Hd, IH. unfold cons_opt, cons_scalar. now rewrite Hn.
  - apply escape_characters_spec in He as (H1 & H2 & H3 & H4 & H5 & H6 & H7).
    cbn [app]. rewrite p_str_escape. rewrite H1, IH.
    replace (e =? 10) with false by lia. replace (is_oct e) with false by (unfold is_oct, octal_digit in *; lia).
    rewrite (proj2 (N.eqb_neq e (chr "x"))), (proj2 (N.eqb_neq e (chr "u"))), (proj2 (N.eqb_neq e (chr "U"))), (proj2 (N.eqb_neq e (chr "N"))) by assumption.
    reflexivity.
Qed.
Lemma p_str_complete long q S s : quote q -> string_rest long q S s -> forall rest, p_str long q (S ++ rest) = Some (s, rest).
Proof.
  intros Hq H rest. induction H as [ | item xs S s Hi HS IH Ho Hl ].
  - assert (q <> 92) as E by (destruct Hq; subst; discriminate).
    destruct long; cbn [quotes app]; rewrite p_str_plain, ?N.eqb_refl by auto; reflexivity.
  - rewrite <- app_assoc. apply p_str_item; auto. eapply string_rest_length; eauto.
Qed.

Lemma octal_head e r : ~ octal_digit e -> forall S, octal_complete (backslash :: e :: r) S.
Proof.
  intros He S ds n c r' [= <-] Hd _ _ _. apply in_base8_all in Hd. apply Forall_cons_iff in Hd as (Hd & _). contradiction.
Qed.
Lemma not_triple (c : N) (T S : text) (q : N) : c <> q -> forall r, (c :: T) ++ S <> [q; q; q] ++ r.
Proof. intros H r [= E _]. contradiction. Qed.
Lemma cons_opt_some c p a b : cons_opt c p = Some (a, b) -> exists n a', c = Some n /\ p = Some (a', b) /\ a = n :: a' /\ is_scalar n = true.
Proof. destruct c as [ n | ]; cbn; [ | discriminate ]. intros H. apply cons_scalar_inv in H as (a' & ? & ? & ?). now exists n, a'. Qed.

Lemma p_str_sound long q : quote q -> forall n s a r, (List.length s <= n)%nat -> p_str long q s = Some (a, r) ->
  exists S, s = S ++ r /\ string_rest long q S a.
Proof.
  intros Hq. assert (Hq92 : backslash <> q) by (destruct Hq; subst; discriminate).
  induction n as [ | n IH ]; intros s a b Hn H; (destruct s as [ | c r ]; [ discriminate | ]); cbn [List.length] in Hn; [ lia | ].
  assert (Step : forall item xs r' a', c :: r = item ++ r' -> string_item long q item xs -> p_str long q r' = Some (a', b) ->
    (forall S, r' = S ++ b -> (List.length (quotes long q) <= List.length S)%nat -> octal_complete item S /\ (long = true -> forall x, item ++ S <> [q; q; q] ++ x)) ->
    exists S, c :: r = S ++ b /\ string_rest long q S (xs ++ a')).
  { intros item xs r' a' E Hi Hp Hc. assert (L : (List.length r' <= n)%nat).
    { apply (f_equal (@List.length N)) in E. rewrite app_length in E. cbn [List.length] in E. apply item_nonempty in Hi. destruct item; [ congruence | ]. cbn [List.length] in E. lia. }
    apply IH in Hp as (S & E' & HS); auto. exists (item ++ S). rewrite E, E', app_assoc. split; auto.
    destruct (Hc S E') as (? & ?); [ eapply string_rest_length; eauto | ]. now constructor. }
  destruct (N.eqb_spec c 92) as [ -> | Ec ].
  - change 92 with backslash in *. destruct r as [ | e r1 ]; [ discriminate | ]. rewrite p_str_escape in H.
    destruct (simple_escape e) as [ x | ] eqn:Es.
    { apply cons1_inv in H as (a' & H & ->). apply (Step [backslash; e] [x] r1 a'); auto.
      - apply item_simple. now apply simple_escape_iff.
      - intros S _ _. split; [ | intros _; now apply not_triple ]. apply octal_head. intros Ho.
        apply simple_escape_iff in Es. unfold simple_escapes in Es. cbn [In] in Es. unfold octal_digit in Ho.
        repeat (destruct Es as [ [= <- <-] | Es ]; [ cbn in Ho; lia | ]). destruct Es. }
    destruct (N.eqb_spec e 10) as [ -> | E10 ].
    { apply (Step [backslash; 10] [] r1 a); auto; [ constructor | ]. intros S _ _. split; [ | intros _; now apply not_triple ]. apply octal_head. unfold octal_digit. lia. }
    destruct (is_oct e) eqn:Eo.
    { apply is_oct_iff in Eo. destruct r1 as [ | e2 r2 ]; [ discriminate | ]. destruct (is_oct e2) eqn:Eo2.
      - apply is_oct_iff in Eo2. destruct r2 as [ | e3 r3 ]; [ discriminate | ]. destruct (is_oct e3) eqn:Eo3;
          apply cons_scalar_inv in H as (a' & H & -> & Hx).
        + apply is_oct_iff in Eo3. apply (Step [backslash; e; e2; e3] [(e - 48) * 64 + (e2 - 48) * 8 + (e3 - 48)] r3 a'); auto.
          * apply item_octal; [ now apply oct3 | unfold lenN; cbn; lia ].
          * intros S _ _. split; [ | intros _; now apply not_triple ]. intros ds m c r [= <-] _ L. unfold lenN in L. cbn [List.length] in L. lia.
        + apply (Step [backslash; e; e2] [(e - 48) * 8 + (e2 - 48)] (e3 :: r3) a'); auto.
          * apply item_octal; [ now apply oct2 | unfold lenN; cbn; lia ].
          * intros S E _. split; [ | intros _; now apply not_triple ]. intros ds m c r _ _ _ ->. injection E as <- _. intros Ho. apply is_oct_iff in Ho. congruence.
      - apply cons_scalar_inv in H as (a' & H & -> & Hx). apply (Step [backslash; e] [e - 48] (e2 :: r2) a'); auto.
        * apply item_octal; [ now apply oct1 | unfold lenN; cbn; lia ].
        * intros S E _. split; [ | intros _; now apply not_triple ]. intros ds m c r _ _ _ ->. injection E as <- _. intros Ho. apply is_oct_iff in Ho. congruence. }
    assert (No : ~ octal_digit e) by (rewrite <- is_oct_iff; congruence).
    assert (Hx : forall k ds n r' a', In (e, k) hex_escapes -> lenN ds = k -> hex_digits ds = Some n -> is_scalar n = true -> r1 = ds ++ r' -> p_str long q r' = Some (a', b) ->
      exists S, backslash :: e :: r1 = S ++ b /\ string_rest long q S (n :: a')).
    { intros k ds m r' a' H1 H2 H3 H4 -> H6. apply (Step (backslash :: e :: ds) [m] r' a'); auto.
      - apply item_hex with k; auto. now apply hex_digits_iff.
      - intros S _ _. split; [ now apply octal_head | intros _; now apply not_triple ]. }
    destruct (N.eqb_spec e (chr "x")) as [ Ee | Ex ].
    { destruct r1 as [ | h1 [ | h2 r2 ] ]; try discriminate.
      apply cons_opt_some in H as (m & a' & Hd & H & -> & Hm). apply (Hx 2 [h1; h2] m r2 a'); auto. rewrite Ee. now left. }
    destruct (N.eqb_spec e (chr "u")) as [ Ee | Eu ].
    { destruct r1 as [ | h1 [ | h2 [ | h3 [ | h4 r2 ] ] ] ]; try discriminate.
      apply cons_opt_some in H as (m & a' & Hd & H & -> & Hm). apply (Hx 4 [h1; h2; h3; h4] m r2 a'); auto. rewrite Ee. now right; left. }
    destruct (N.eqb_spec e (chr "U")) as [ Ee | EU ].
    { destruct r1 as [ | h1 [ | h2 [ | h3 [ | h4 [ | h5 [ | h6 [ | h7 [ | h8 r2 ] ] ] ] ] ] ] ]; try discriminate.
      apply cons_opt_some in H as (m & a' & Hd & H & -> & Hm). apply (Hx 8 [h1; h2; h3; h4; h5; h6; h7; h8] m r2 a'); auto. rewrite Ee. now right; right; left. }
    destruct (N.eqb_spec e (chr "N")) as [ | EN ]; [ discriminate | ].
    apply cons1_inv in H as (a' & H & ->). apply cons1_inv in H as (a'' & H & ->). apply (Step [backslash; e] [backslash; e] r1 a''); auto.
    + apply item_other. apply escape_characters_spec. auto 10.
    + intros S _ _. split; [ now apply octal_head | intros _; now apply not_triple ].
  - rewrite p_str_plain in H by auto. assert (Oc : forall T S, octal_complete (c :: T) S) by (intros T S ds m c' r' [= E _]; unfold backslash in E; congruence).
    destruct (N.eqb_spec c q) as [ -> | Ecq ].
    + destruct long.
      * destruct r as [ | c2 [ | c3 r3 ] ]; try discriminate. destruct ((c2 =? q) && (c3 =? q)) eqn:E.
        { injection H as <- <-. exists [q; q; q]. split; [ replace c2 with q by lia; now replace c3 with q by lia | constructor ]. }
        apply cons1_inv in H as (a' & H & ->). apply (Step [q] [q] (c2 :: c3 :: r3) a'); auto.
        { apply item_raw; [ assumption | discriminate ]. }
        intros S ES L. split; [ apply Oc | ]. intros _ x Ex. cbn [app] in Ex. injection Ex as ->. cbn [app] in ES. injection ES as -> -> _. rewrite N.eqb_refl in E. discriminate.
      * injection H as <- <-. exists [q]. split; [ reflexivity | constructor ].
    + destruct (negb long && ((c =? 10) || (c =? 13))) eqn:El; [ discriminate | ].
      apply cons1_inv in H as (a' & H & ->). apply (Step [c] [c] r a'); auto.
      * apply item_raw; [ assumption | ]. intros ->. cbn [negb andb] in El. lia.
      * intros S _ _. split; [ apply Oc | intros _; now apply not_triple ].
Qed.

(** The character after a value in a literal: none, a blank or a separator. *)
Definition delimited (rest : text) : Prop := match rest with [] => True | c :: _ => In c [32; 9; 12; 44; 58; 41; 93; 125] end.
Lemma delimited_head c r : delimited (c :: r) -> c <> 39 /\ c <> 34 /\ is_digit c = false /\ c <> 95 /\ c <> 48.
Proof. unfold delimited, is_digit. cbn [In]. lia. Qed.
Lemma string_rest_head q c S s : quote q -> string_rest false q (c :: S) s -> (c = q /\ S = []) \/ c <> q.
Proof.
  intros Hq H. assert (Hq92 : backslash <> q) by (destruct Hq; subst; discriminate).
  remember (c :: S) as X eqn:E. destruct H as [ | item xs S' s Hi _ _ _ ]; [ injection E as <- <-; now left | right ].
  destruct Hi as [ d Hd Hr | | | | | ]; injection E as <- _; auto. now destruct Hr.
Qed.
Lemma p_string_complete long q S s rest : quote q -> string_rest long q S s -> delimited rest -> p_string (quotes long q ++ S ++ rest) = Some (s, rest).
Proof.
  intros Hq H Hd. pose proof (p_str_complete _ _ _ _ Hq H rest) as P.
  assert (Eq : (q =? 39) || (q =? 34) = true) by (destruct Hq; subst; reflexivity).
  destruct long; cbn [quotes app p_string]; rewrite Eq; [ now rewrite !N.eqb_refl | ].
  pose proof (string_rest_length _ _ _ _ H) as L. destruct S as [ | c S ]; [ cbn in L; lia | ]. cbn [app] in *.
  pose proof (string_rest_head _ _ _ _ Hq H) as [ (-> & ->) | Hc ]; cbn [app] in *.
  - destruct rest as [ | d rest ]; [ exact P | ]. apply delimited_head in Hd. replace (d =? q) with false by (destruct Hq; subst; lia). rewrite andb_false_r. exact P.
  - replace (c =? q) with false by lia. destruct (S ++ rest); exact P.
Qed.
Lemma p_string_sound s a r : p_string s = Some (a, r) -> exists long q S, quote q /\ s = quotes long q ++ S ++ r /\ string_rest long q S a.
Proof.
  unfold p_string. destruct s as [ | q s ]; [ discriminate | ]. destruct ((q =? 39) || (q =? 34)) eqn:Eq; [ | discriminate ].
  assert (Hq : quote q) by (unfold quote; lia). clear Eq.
  assert (Short : p_str false q s = Some (a, r) -> exists long q' S, quote q' /\ q :: s = quotes long q' ++ S ++ r /\ string_rest long q' S a).
  { intros H. apply (p_str_sound false q Hq _ s a r (Nat.le_refl _)) in H as (S & -> & HS). now exists false, q, S. }
  destruct s as [ | q2 [ | q3 r3 ] ]; auto. destruct ((q2 =? q) && (q3 =? q)) eqn:E; auto.
  intros H. apply (p_str_sound true q Hq _ r3 a r (Nat.le_refl _)) in H as (S & -> & HS). exists true, q, S.
  replace q2 with q by lia. replace q3 with q by lia. auto.
Qed.

(** * Integers *)
Lemma p_digits_complete (ok : N -> bool) (P : N -> Prop) src ds rest : (forall c, ok c = true <-> P c) -> ok 95 = false ->
  more_digits P src ds -> match rest with [] => True | c :: _ => ok c = false /\ c <> 95 end -> p_digits ok (src ++ rest) = (ds, rest).
Proof.
  intros Hok H95 H Hr. induction H as [ | d src ds Hd H IH | d src ds Hd H IH ].
  - exact (p_digits_all ok [] rest (Forall_nil _) Hr).
  - apply Hok in Hd. cbn [app p_digits]. now rewrite Hd, IH.
  - apply Hok in Hd. cbn [app p_digits]. rewrite H95. change (95 =? 95) with true. cbv iota. now rewrite Hd, IH.
Qed.
Lemma p_digits_sound (ok : N -> bool) (P : N -> Prop) : (forall c, ok c = true <-> P c) -> forall n s ds r, (List.length s <= n)%nat ->
  p_digits ok s = (ds, r) -> exists src, s = src ++ r /\ more_digits P src ds.
Proof.
  intros Hok. induction n as [ | n IH ]; intros [ | c s ] ds r Hn H; cbn [List.length] in Hn; try lia;
    try (injection H as <- <-; exists []; split; [ reflexivity | constructor ]).
  cbn [p_digits] in H. destruct (ok c) eqn:Ec.
  - destruct (p_digits ok s) as (a, b) eqn:E. injection H as <- <-. apply IH in E as (src & -> & Hs); [ | lia ]. exists (c :: src). split; auto. constructor; auto. now apply Hok.
  - assert (Done : ([], c :: s) = (ds, r) -> exists src, c :: s = src ++ r /\ more_digits P src ds).
    { intros [= <- <-]. exists []. split; [ reflexivity | constructor ]. }
    destruct (N.eqb_spec c 95) as [ -> | ]; [ | auto ]. destruct s as [ | c2 r2 ]; [ auto | ]. destruct (ok c2) eqn:E2; [ | auto ].
    destruct (p_digits ok r2) as (a, b) eqn:E. injection H as <- <-. cbn [List.length] in Hn. apply IH in E as (src & -> & Hs); [ | lia ].
    exists (95 :: c2 :: src). split; auto. constructor; auto. now apply Hok.
Qed.
Lemma is_digit_iff c : is_digit c = true <-> 48 <= c <= 57.
Proof. unfold is_digit. lia. Qed.
Lemma p_nat_complete src n rest : natural src n -> delimited rest -> p_nat (src ++ rest) = Some (n, rest).
Proof.
  intros H Hd. destruct H as [ src ds H | d src ds Hr H ]; cbn [app p_nat].
  - change (48 =? 48) with true. cbv iota. rewrite (p_digits_complete (N.eqb 48) (eq 48) src ds rest); auto; [ apply N.eqb_eq | ].
    destruct rest; auto. apply delimited_head in Hd. lia.
  - replace (d =? 48) with false by lia. rewrite (proj2 (is_digit_iff d)) by lia.
    rewrite (p_digits_complete is_digit (fun c => 48 <= c <= 57) src ds rest); auto.
    + now rewrite decimal_value_dec_value.
    + apply is_digit_iff.
    + destruct rest; auto. apply delimited_head in Hd. tauto.
Qed.
Lemma p_nat_sound s n r : p_nat s = Some (n, r) -> exists src, s = src ++ r /\ natural src n.
Proof.
  unfold p_nat. destruct s as [ | c s ]; [ discriminate | ]. destruct (N.eqb_spec c 48) as [ -> | Hc ].
  - destruct (p_digits (N.eqb 48) s) as (ds, b) eqn:E. intros [= <- <-].
    apply (p_digits_sound (N.eqb 48) (eq 48) (N.eqb_eq 48) _ s _ _ (Nat.le_refl _)) in E as (src & -> & H). exists (48 :: src). split; auto. econstructor; eauto.
  - destruct (is_digit c) eqn:Ed; [ | discriminate ]. destruct (p_digits is_digit s) as (ds, b) eqn:E. intros [= <- <-].
    apply (p_digits_sound is_digit (fun c => 48 <= c <= 57) is_digit_iff _ s _ _ (Nat.le_refl _)) in E as (src & -> & H). exists (c :: src). split; auto.
    rewrite <- decimal_value_dec_value. constructor; auto. apply is_digit_iff in Ed. lia.
Qed.
Lemma p_int_complete src z rest : signed_rest src z -> delimited rest -> forall neg, p_int neg (src ++ rest) = Some (if neg then (- z)%Z else z, rest).
Proof.
  intros H Hd. induction H as [ src n H | c src z Hc H IH | src z H IH | src z H IH ]; intros neg.
  - pose proof (p_nat_complete _ _ rest H Hd) as P.
    assert (exists c r, src = c :: r /\ 48 <= c <= 57) as (c & r & -> & Hc) by (destruct H; [ exists 48, src | exists d, src ]; split; auto; lia).
    cbn [app p_int] in *. replace (c =? chr "-") with false by (cbn; lia). replace (c =? chr "+") with false by (cbn; lia).
    rewrite blank_no by (unfold blank; lia). now rewrite P.
  - cbn [app p_int]. apply blank_iff in Hc as E. unfold blank in Hc.
    replace (c =? chr "-") with false by (cbn; lia). replace (c =? chr "+") with false by (cbn; lia). now rewrite E.
  - cbn [app p_int]. change (chr "+" =? chr "-") with false. change (chr "+" =? chr "+") with true. apply IH.
  - cbn [app p_int]. change (chr "-" =? chr "-") with true. cbv iota. rewrite IH. destruct neg; cbn [negb]; now rewrite ?Z.opp_involutive.
Qed.
Lemma p_int_sound s : forall neg z r, p_int neg s = Some (z, r) -> exists src z', s = src ++ r /\ signed_rest src z' /\ z = if neg then (- z')%Z else z'.
Proof.
  induction s as [ | c s IH ]; intros neg z r H; [ discriminate | ]. cbn [p_int] in H.
  destruct (N.eqb_spec c (chr "-")) as [ -> | ].
  { apply IH in H as (src & z' & -> & H & ->). exists (chr "-" :: src), (- z')%Z. split; auto. split; [ now constructor | ]. destruct neg; cbn [negb]; lia. }
  destruct (N.eqb_spec c (chr "+")) as [ -> | ].
  { apply IH in H as (src & z' & -> & H & ->). exists (chr "+" :: src), z'. split; auto. split; [ now constructor | auto ]. }
  destruct (is_blank c) eqn:Eb.
  { apply blank_iff in Eb. apply IH in H as (src & z' & -> & H & ->). exists (c :: src), z'. split; auto. split; [ now constructor | auto ]. }
  destruct (p_nat (c :: s)) as [ (k, rest) | ] eqn:E; [ | discriminate ]. apply p_nat_sound in E as (src & E & Hn). injection H as <- <-.
  exists src, (Z.of_N k). split; auto. split; [ now constructor | destruct neg; auto ].
Qed.

(** * Values *)
Scheme literal_mind := Induction for literal Sort Prop
  with sequence_mind := Induction for sequence Sort Prop
  with entries_mind := Induction for entries Sort Prop.
Combined Scheme literal_all from literal_mind, sequence_mind, entries_mind.

Lemma signed_rest_head c r z : signed_rest (c :: r) z -> ~ blank c -> is_digit c || (c =? chr "+") || (c =? chr "-") = true.
Proof.
  intros H Hb. remember (c :: r) as s eqn:E. destruct H as [ src n H | c' src z Hc H | | ].
  - apply orb_true_iff. left. apply orb_true_iff. left. rewrite is_digit_iff. destruct H; injection E as <- _; lia.
  - injection E as -> _. contradiction.
  - now injection E as <- _.
  - now injection E as <- _.
Qed.
Lemma signed_rest_nonempty s z : signed_rest s z -> s <> [].
Proof. destruct 1 as [ ? ? H | | | ]; try discriminate. now destruct H. Qed.
Lemma literal_starter s v : literal s v -> starter s.
Proof.
  destruct 1 as [ src s H | src z (H & Hb) | | | | | | | | ]; try (cbn; repeat split; (reflexivity || discriminate)).
  - destruct H as (p & long & q & S & -> & Hp & Hq & _).
    destruct Hp as [ -> | [ -> | -> ] ]; [ | now repeat split | now repeat split ]. destruct long, Hq; subst; now repeat split.
  - destruct src as [ | c r ]; [ now apply signed_rest_nonempty in H | ]. specialize (Hb c r eq_refl).
    pose proof (signed_rest_head c r z H Hb) as Hh. change (chr "+") with 43 in Hh. change (chr "-") with 45 in Hh. unfold is_digit in Hh.
    cbn [starter]. split; [ now apply blank_no | ]. lia.
Qed.
Lemma sequence_head close s vs : closer close -> sequence close s vs -> forall rest, skip_ws (s ++ rest) = s ++ rest.
Proof.
  intros Hc H rest. destruct H as [ close | close src v b H _ | close src v b1 b2 items vs H _ _ _ ].
  - apply skip_ws_nonblank. now apply closer_nonblank.
  - rewrite <- app_assoc. apply skip_ws_starter. eapply literal_starter; eauto.
  - rewrite <- app_assoc. apply skip_ws_starter. eapply literal_starter; eauto.
Qed.
Lemma entries_head s vs : entries s vs -> forall rest, skip_ws (s ++ rest) = s ++ rest.
Proof.
  intros H rest. destruct H as [ | ks k b1 b2 vs v b3 H | ks k b1 b2 vs v b3 b4 items l H ]; [ reflexivity | | ];
    rewrite <- app_assoc; apply skip_ws_starter; eapply literal_starter; eauto.
Qed.
Lemma delimited_spaces b r : spaces b -> delimited r -> delimited (b ++ r).
Proof. intros H Hr. destruct H as [ | c b Hc _ ]; auto. unfold blank in Hc. cbn [app delimited In]. lia. Qed.
Lemma delimited_closer close r : closer close -> delimited (close :: r).
Proof. unfold closer, delimited. cbn [In]. lia. Qed.
Lemma skip_spaces b r : spaces b -> skip_ws (b ++ r) = skip_ws r.
Proof. intros H. apply skip_ws_blanks. now apply spaces_blanks. Qed.

Definition reads_value (s : text) (v : value) : Prop :=
  forall rest f, delimited rest -> (2 * List.length s + 1 <= f)%nat -> p_value f (s ++ rest) = Some (v, rest).
Definition reads_items (close : N) (s : text) (vs : list value) : Prop :=
  closer close -> forall rest f, (2 * List.length s + 2 <= f)%nat -> p_items f close (s ++ rest) = Some (vs, rest).
Definition reads_entries (s : text) (vs : list (value * value)) : Prop :=
  forall rest f, (2 * List.length s + 2 <= f)%nat -> p_dict f (s ++ rest) = Some (vs, rest).

(** A value followed by blanks and a separator. *)
Lemma value_then s v b c r f : literal s v -> reads_value s v -> spaces b -> In c [44; 58; 41; 93; 125] -> (2 * List.length s + 1 <= f)%nat ->
  exists c0 s0, s = c0 :: s0 /\ is_blank c0 = false /\ c0 <> 41 /\ c0 <> 93 /\ c0 <> 125
    /\ p_value f (c0 :: s0 ++ b ++ c :: r) = Some (v, b ++ c :: r) /\ skip_ws (b ++ c :: r) = c :: r.
Proof.
  intros Hl Hr Hb Hc Hf. apply literal_starter in Hl. destruct s as [ | c0 s0 ]; [ destruct Hl | ]. destruct Hl as (? & ? & ? & ?).
  exists c0, s0. repeat (split; [ assumption || reflexivity | ]). split.
  - apply (Hr (b ++ c :: r)); auto. apply delimited_spaces; auto. unfold delimited. cbn [In] in *. tauto.
  - rewrite skip_spaces by auto. apply skip_ws_nonblank. unfold is_blank. cbn [In] in Hc. lia.
Qed.

(** One step of the parser after an opening bracket. *)
Lemma p_value_paren f r : p_value (S f) (40 :: r) =
  match skip_ws r with
  | [] => None
  | c1 :: r1 =>
    if c1 =? 41 then Some (VTuple [], r1)
    else match p_value f (c1 :: r1) with
         | None => None
         | Some (v, r2) =>
           match skip_ws r2 with
           | c3 :: r3 => if c3 =? 44 then match p_items f 41 (skip_ws r3) with Some (vs, r4) => Some (VTuple (v :: vs), r4) | None => None end else None
           | [] => None
           end
         end
  end.
Proof. reflexivity. Qed.
Lemma p_value_bracket f r : p_value (S f) (91 :: r) = match p_items f 93 (skip_ws r) with Some (vs, rest) => Some (VList vs, rest) | None => None end.
Proof. reflexivity. Qed.
Lemma p_value_brace f r : p_value (S f) (123 :: r) =
  match skip_ws r with
  | [] => None
  | c1 :: r1 =>
    if c1 =? 125 then Some (VDict [], r1)
    else match p_value f (c1 :: r1) with
    | None => None
    | Some (k, r2) =>
      match skip_ws r2 with
      | [] => None
      | c3 :: r3 =>
        if c3 =? 58 then
          match p_value f (skip_ws r3) with
          | None => None
          | Some (v, r4) =>
            match skip_ws r4 with
            | [] => None
            | c5 :: r5 =>
              if c5 =? 125 then Some (VDict [(k, v)], r5)
              else if c5 =? 44 then match p_dict f (skip_ws r5) with Some (kvs, r6) => Some (VDict ((k, v) :: kvs), r6) | None => None end
              else None
            end
          end
        else if c3 =? 125 then Some (VSet [k], r3)
        else if c3 =? 44 then match p_items f 125 (skip_ws r3) with Some (vs, r4) => Some (VSet (k :: vs), r4) | None => None end
        else None
      end
    end
  end.
Proof. reflexivity. Qed.
Lemma p_items_step f close c r : p_items (S f) close (c :: r) =
  if c =? close then Some ([], r)
  else match p_value f (c :: r) with
  | None => None
  | Some (v, r1) =>
    match skip_ws r1 with
    | [] => None
    | c2 :: r2 =>
      if c2 =? close then Some ([v], r2)
      else if c2 =? 44 then match p_items f close (skip_ws r2) with Some (vs, r3) => Some (v :: vs, r3) | None => None end
      else None
    end
  end.
Proof. reflexivity. Qed.
Lemma p_dict_step f c r : p_dict (S f) (c :: r) =
  if c =? 125 then Some ([], r)
  else match p_value f (c :: r) with
  | None => None
  | Some (k, r1) =>
    match skip_ws r1 with
    | [] => None
    | c2 :: r2 =>
      if c2 =? 58 then
        match p_value f (skip_ws r2) with
        | None => None
        | Some (v, r3) =>
          match skip_ws r3 with
          | [] => None
          | c4 :: r4 =>
            if c4 =? 125 then Some ([(k, v)], r4)
            else if c4 =? 44 then match p_dict f (skip_ws r4) with Some (kvs, r5) => Some ((k, v) :: kvs, r5) | None => None end
            else None
          end
        end
      else None
    end
  end.
Proof. reflexivity. Qed.

(** Sets and dictionaries: the parser inlines the first step of the sequence it turns out to read. *)
Lemma brace_set f r s vs rest : skip_ws r = s -> p_items (S f) 125 s = Some (vs, rest) -> vs <> [] -> p_value (S f) (123 :: r) = Some (VSet vs, rest).
Proof.
  intros E H Hne. rewrite p_value_brace, E. destruct s as [ | c s ]; [ discriminate | ]. rewrite p_items_step in H.
  destruct (c =? 125); [ injection H as <- <-; congruence | ]. destruct (p_value f (c :: s)) as [ (v, r1) | ]; [ | discriminate ].
  destruct (skip_ws r1) as [ | c2 r2 ]; [ discriminate | ].
  destruct (N.eqb_spec c2 125) as [ -> | H125 ]; [ injection H as <- <-; reflexivity | ].
  destruct (N.eqb_spec c2 44) as [ -> | ]; [ | discriminate ]. change (44 =? 58) with false. cbv iota.
  destruct (p_items f 125 (skip_ws r2)) as [ (l, r3) | ]; [ | discriminate ]. now injection H as <- <-.
Qed.
Lemma brace_dict f r s vs rest : skip_ws r = s -> p_dict (S f) s = Some (vs, rest) -> p_value (S f) (123 :: r) = Some (VDict vs, rest).
Proof.
  intros E H. rewrite p_value_brace, E. destruct s as [ | c s ]; [ discriminate | ]. rewrite p_dict_step in H.
  destruct (c =? 125); [ injection H as <- <-; reflexivity | ]. destruct (p_value f (c :: s)) as [ (v, r1) | ]; [ | discriminate ].
  destruct (skip_ws r1) as [ | c2 r2 ]; [ discriminate | ]. destruct (c2 =? 58); [ | discriminate ].
  destruct (p_value f (skip_ws r2)) as [ (w, r3) | ]; [ | discriminate ]. destruct (skip_ws r3) as [ | c4 r4 ]; [ discriminate | ].
  destruct (c4 =? 125); [ injection H as <- <-; reflexivity | ]. destruct (c4 =? 44); [ | discriminate ].
  destruct (p_dict f (skip_ws r4)) as [ (l, r5) | ]; [ | discriminate ]. now injection H as <- <-.
Qed.

Ltac texts := change (lit "(") with [40]; change (lit ")") with [41]; change (lit "[") with [91]; change (lit "{") with [123]; change (lit "}") with [125];
  change (lit ",") with [44]; change (lit ":") with [58]; change (chr ")") with 41; change (chr "]") with 93; change (chr "}") with 125.
Ltac flat := cbn [app]; repeat (progress (rewrite <- ?app_assoc; cbn [app])).
Ltac fuel Hf f := destruct f as [ | f ]; [ lia | ]; repeat (rewrite app_length in Hf || cbn [List.length] in Hf).

Lemma grammar_read :
  (forall s v, literal s v -> reads_value s v) /\ (forall close s vs, sequence close s vs -> reads_items close s vs) /\ (forall s vs, entries s vs -> reads_entries s vs).
Proof.
  apply (literal_all (fun s v _ => reads_value s v) (fun close s vs _ => reads_items close s vs) (fun s vs _ => reads_entries s vs)); texts.
  - intros src s (p & long & q & S & -> & Hp & Hq & HS) rest f Hd Hf. destruct f; [ lia | ].
    pose proof (p_string_complete long q S s rest Hq HS Hd) as P. rewrite <- !app_assoc.
    destruct Hp as [ -> | [ -> | -> ] ].
    + cbn [app]. assert (exists t, quotes long q ++ S ++ rest = q :: t) as (t & E) by (destruct long; cbn [quotes app]; eauto). rewrite E in *.
      cbn [p_value]. replace ((q =? 39) || (q =? 34)) with true by (destruct Hq; subst; reflexivity). now rewrite P.
    + change (lit "u" ++ quotes long q ++ S ++ rest) with (117 :: quotes long q ++ S ++ rest). cbn [p_value].
      change ((117 =? 39) || (117 =? 34)) with false. change ((117 =? chr "u") || (117 =? chr "U")) with true. cbv iota. now rewrite P.
    + change (lit "U" ++ quotes long q ++ S ++ rest) with (85 :: quotes long q ++ S ++ rest). cbn [p_value].
      change ((85 =? 39) || (85 =? 34)) with false. change ((85 =? chr "u") || (85 =? chr "U")) with true. cbv iota. now rewrite P.
  - intros src z (H & Hb) rest f Hd Hf. destruct f; [ lia | ]. pose proof (p_int_complete _ _ rest H Hd false) as P.
    destruct src as [ | c r ]; [ now apply signed_rest_nonempty in H | ]. specialize (Hb c r eq_refl).
    pose proof (signed_rest_head c r z H Hb) as Hh. cbn [app] in *. cbn [p_value]. rewrite Hh.
    change (chr "+") with 43 in Hh. change (chr "-") with 45 in Hh. change (chr "u") with 117. change (chr "U") with 85. unfold is_digit in Hh.
    replace ((c =? 39) || (c =? 34)) with false by lia.
    replace ((c =? 117) || (c =? 85)) with false by lia. now rewrite P.
  - intros rest f _ Hf. destruct f; [ lia | ]. reflexivity.
  - intros rest f _ Hf. destruct f; [ lia | ]. reflexivity.
  - intros rest f _ Hf. destruct f; [ lia | ]. reflexivity.
  - intros b Hb rest f _ Hf. fuel Hf f. flat. rewrite p_value_paren, skip_spaces by auto. reflexivity.
  - intros b1 src v b2 b3 items vs H1 Hl IHl H2 H3 Hs IHs rest f _ Hf. fuel Hf f. flat.
    destruct (value_then src v b2 44 (b3 ++ items ++ rest) f Hl IHl H2) as (c0 & s0 & -> & E1 & E2 & E3 & E4 & P1 & P2); [ now left | lia | ].
    assert (closer 41) as Hc by now left.
    rewrite p_value_paren, skip_spaces by auto. cbn [app]. rewrite (skip_ws_nonblank c0) by auto. replace (c0 =? 41) with false by lia.
    rewrite P1, P2. change (44 =? 44) with true. cbv iota.
    rewrite skip_spaces, (sequence_head _ _ _ Hc Hs) by auto. rewrite IHs; auto. lia.
  - intros b items vs Hb Hs IHs rest f _ Hf. fuel Hf f. flat.
    assert (closer 93) as Hc by now right; left.
    rewrite p_value_bracket, skip_spaces, (sequence_head _ _ _ Hc Hs) by auto. rewrite IHs; auto. lia.
  - intros b items vs Hb Hs IHs Hne rest f _ Hf. fuel Hf f. flat.
    assert (closer 125) as Hc by now right; right.
    apply brace_set with (items ++ rest); auto; [ rewrite skip_spaces by auto; now apply (sequence_head 125 items vs) | ]. apply IHs; auto. lia.
  - intros b items vs Hb Hs IHs rest f _ Hf. fuel Hf f. flat.
    apply brace_dict with (items ++ rest); auto; [ rewrite skip_spaces by auto; now apply (entries_head items vs) | ]. apply IHs; auto. lia.
  - intros close Hc rest f Hf. fuel Hf f. cbn [app]. now rewrite p_items_step, N.eqb_refl.
  - intros close src v b Hl IHl Hb Hc rest f Hf. fuel Hf f. flat.
    destruct (value_then src v b close rest f Hl IHl Hb) as (c0 & s0 & -> & E1 & E2 & E3 & E4 & P1 & P2); [ unfold closer in Hc; cbn [In]; lia | lia | ].
    cbn [app]. rewrite p_items_step. replace (c0 =? close) with false by (unfold closer in Hc; lia). rewrite P1, P2, N.eqb_refl. reflexivity.
  - intros close src v b1 b2 items vs Hl IHl H1 H2 Hs IHs Hc rest f Hf. fuel Hf f. flat.
    destruct (value_then src v b1 44 (b2 ++ items ++ rest) f Hl IHl H1) as (c0 & s0 & -> & E1 & E2 & E3 & E4 & P1 & P2); [ now left | lia | ].
    cbn [app]. rewrite p_items_step. replace (c0 =? close) with false by (unfold closer in Hc; lia). rewrite P1, P2.
    replace (44 =? close) with false by (unfold closer in Hc; lia). change (44 =? 44) with true. cbv iota.
    rewrite skip_spaces, (sequence_head _ _ _ Hc Hs) by auto. rewrite IHs; auto. lia.
  - intros rest f Hf. destruct f; [ lia | ]. reflexivity.
  - intros ks k b1 b2 vs v b3 Hk IHk H1 H2 Hv IHv H3 rest f Hf. fuel Hf f. flat.
    destruct (value_then ks k b1 58 (b2 ++ vs ++ b3 ++ 125 :: rest) f Hk IHk H1) as (c0 & s0 & -> & E1 & E2 & E3 & E4 & P1 & P2); [ cbn [In]; lia | lia | ].
    destruct (value_then vs v b3 125 rest f Hv IHv H3) as (d0 & t0 & -> & F1 & F2 & F3 & F4 & Q1 & Q2); [ cbn [In]; lia | lia | ].
    cbn [app] in *. rewrite p_dict_step. replace (c0 =? 125) with false by lia. rewrite P1, P2. change (58 =? 58) with true. cbv iota.
    rewrite skip_spaces by auto. rewrite (skip_ws_nonblank d0) by auto. rewrite Q1, Q2. reflexivity.
  - intros ks k b1 b2 vs v b3 b4 items l Hk IHk H1 H2 Hv IHv H3 H4 He IHe rest f Hf. fuel Hf f. flat.
    destruct (value_then ks k b1 58 (b2 ++ vs ++ b3 ++ 44 :: b4 ++ items ++ rest) f Hk IHk H1) as (c0 & s0 & -> & E1 & E2 & E3 & E4 & P1 & P2); [ cbn [In]; lia | lia | ].
    destruct (value_then vs v b3 44 (b4 ++ items ++ rest) f Hv IHv H3) as (d0 & t0 & -> & F1 & F2 & F3 & F4 & Q1 & Q2); [ cbn [In]; lia | lia | ].
    cbn [app] in *. rewrite p_dict_step. replace (c0 =? 125) with false by lia. rewrite P1, P2. change (58 =? 58) with true. cbv iota.
    rewrite skip_spaces by auto. rewrite (skip_ws_nonblank d0) by auto. rewrite Q1, Q2. change (44 =? 125) with false. change (44 =? 44) with true. cbv iota.
    rewrite skip_spaces, (entries_head _ _ He) by auto. rewrite IHe; auto. lia.
Qed.
Lemma parse_complete src v : python_literal src v -> parse_literal src = Some v.
Proof.
  intros (b1 & s & b2 & -> & H1 & H2 & H). pose proof (proj1 grammar_read s v H) as R.
  unfold parse_literal. rewrite skip_spaces by auto. rewrite skip_ws_starter by (eapply literal_starter; eauto).
  rewrite R.
  - pose proof (skip_spaces b2 [] H2) as E. rewrite app_nil_r in E. now rewrite E.
  - rewrite <- (app_nil_r b2). apply delimited_spaces; auto. exact I.
  - rewrite !app_length. lia.
Qed.

(** * Soundness *)
Definition says_value (f : nat) : Prop := forall s v r, p_value f s = Some (v, r) -> exists t, s = t ++ r /\ literal t v.
Definition says_items (f : nat) : Prop := forall close s vs r, p_items f close s = Some (vs, r) -> exists t, s = t ++ r /\ sequence close t vs.
Definition says_entries (f : nat) : Prop := forall s vs r, p_dict f s = Some (vs, r) -> exists t, s = t ++ r /\ entries t vs.

(** What was skipped. *)
Lemma skipped_to s t : skip_ws s = t -> exists b, spaces b /\ s = b ++ t.
Proof. intros <-. apply skip_ws_split. Qed.

Lemma says_items_step f : says_value f -> says_items f -> says_items (S f).
Proof.
  intros HV HI close s vs r H. destruct s as [ | c s ]; [ discriminate | ]. rewrite p_items_step in H.
  destruct (N.eqb_spec c close) as [ -> | ]. { injection H as <- <-. exists [close]. split; [ reflexivity | constructor ]. }
  destruct (p_value f (c :: s)) as [ (v, r1) | ] eqn:E1; [ | discriminate ]. apply HV in E1 as (t & -> & Ht).
  destruct (skip_ws r1) as [ | c2 r2 ] eqn:E2; [ discriminate | ]. apply skipped_to in E2 as (b & Hb & ->).
  destruct (N.eqb_spec c2 close) as [ -> | ]. { injection H as <- <-. exists (t ++ b ++ [close]). split; [ now rewrite <- !app_assoc | now constructor ]. }
  destruct (N.eqb_spec c2 44) as [ -> | ]; [ | discriminate ].
  destruct (p_items f close (skip_ws r2)) as [ (l, r3) | ] eqn:E3; [ | discriminate ]. injection H as <- <-.
  apply HI in E3 as (t' & E3 & Ht'). apply skipped_to in E3 as (b' & Hb' & ->).
  exists (t ++ b ++ lit "," ++ b' ++ t'). split; [ now rewrite <- !app_assoc | now constructor ].
Qed.
Lemma says_entries_step f : says_value f -> says_entries f -> says_entries (S f).
Proof.
  intros HV HD s vs r H. destruct s as [ | c s ]; [ discriminate | ]. rewrite p_dict_step in H.
  destruct (N.eqb_spec c 125) as [ -> | ]. { injection H as <- <-. exists [125]. split; [ reflexivity | apply entries_end ]. }
  destruct (p_value f (c :: s)) as [ (k, r1) | ] eqn:E1; [ | discriminate ]. apply HV in E1 as (t & -> & Ht).
  destruct (skip_ws r1) as [ | c2 r2 ] eqn:E2; [ discriminate | ]. apply skipped_to in E2 as (b & Hb & ->).
  destruct (N.eqb_spec c2 58) as [ -> | ]; [ | discriminate ].
  destruct (p_value f (skip_ws r2)) as [ (v, r3) | ] eqn:E3; [ | discriminate ]. apply HV in E3 as (t' & E3 & Ht'). apply skipped_to in E3 as (b' & Hb' & ->).
  destruct (skip_ws r3) as [ | c4 r4 ] eqn:E4; [ discriminate | ]. apply skipped_to in E4 as (b3 & Hb3 & ->).
  destruct (N.eqb_spec c4 125) as [ -> | ].
  { injection H as <- <-. exists (t ++ b ++ lit ":" ++ b' ++ t' ++ b3 ++ lit "}"). split; [ now rewrite <- !app_assoc | now constructor ]. }
  destruct (N.eqb_spec c4 44) as [ -> | ]; [ | discriminate ].
  destruct (p_dict f (skip_ws r4)) as [ (l, r5) | ] eqn:E5; [ | discriminate ]. injection H as <- <-.
  apply HD in E5 as (t5 & E5 & Ht5). apply skipped_to in E5 as (b5 & Hb5 & ->).
  exists (t ++ b ++ lit ":" ++ b' ++ t' ++ b3 ++ lit "," ++ b5 ++ t5). split; [ now rewrite <- !app_assoc | now constructor ].
Qed.
(** A value in braces is a set or a dictionary. *)
Lemma brace_inv f r v rest : p_value (S f) (123 :: r) = Some (v, rest) ->
  (exists vs, v = VSet vs /\ vs <> [] /\ p_items (S f) 125 (skip_ws r) = Some (vs, rest)) \/ (exists kvs, v = VDict kvs /\ p_dict (S f) (skip_ws r) = Some (kvs, rest)).
Proof.
  rewrite p_value_brace. destruct (skip_ws r) as [ | c s ]; [ discriminate | ]. rewrite p_items_step, p_dict_step.
  destruct (c =? 125). { intros [= <- <-]. right. now exists []. }
  destruct (p_value f (c :: s)) as [ (k, r1) | ]; [ | discriminate ]. destruct (skip_ws r1) as [ | c2 r2 ]; [ discriminate | ].
  destruct (N.eqb_spec c2 58) as [ -> | H58 ].
  - intros H. right. destruct (p_value f (skip_ws r2)) as [ (w, r3) | ]; [ | discriminate ]. destruct (skip_ws r3) as [ | c4 r4 ]; [ discriminate | ].
    destruct (c4 =? 125). { injection H as <- <-. now exists [(k, w)]. }
    destruct (c4 =? 44); [ | discriminate ]. destruct (p_dict f (skip_ws r4)) as [ (l, r5) | ]; [ | discriminate ]. injection H as <- <-. now exists ((k, w) :: l).
  - intros H. left. destruct (c2 =? 125). { injection H as <- <-. exists [k]. repeat split. discriminate. }
    destruct (c2 =? 44); [ | discriminate ]. destruct (p_items f 125 (skip_ws r2)) as [ (l, r3) | ]; [ | discriminate ]. injection H as <- <-.
    exists (k :: l). repeat split. discriminate.
Qed.
Lemma says_value_step f : says_value f -> says_items f -> says_items (S f) -> says_entries (S f) -> says_value (S f).
Proof.
  intros HV HI HI1 HD1 s v r H. destruct s as [ | c s ]; [ discriminate | ].
  destruct (N.eqb_spec c 40) as [ -> | H40 ].
  { rewrite p_value_paren in H. destruct (skip_ws s) as [ | c1 r1 ] eqn:E0; [ discriminate | ]. apply skipped_to in E0 as (b & Hb & ->).
    destruct (N.eqb_spec c1 41) as [ -> | ]. { injection H as <- <-. exists (lit "(" ++ b ++ lit ")"). split; [ now rewrite <- !app_assoc | now constructor ]. }
    destruct (p_value f (c1 :: r1)) as [ (v1, r2) | ] eqn:E1; [ | discriminate ]. apply HV in E1 as (t & -> & Ht).
    destruct (skip_ws r2) as [ | c3 r3 ] eqn:E2; [ discriminate | ]. apply skipped_to in E2 as (b2 & Hb2 & ->).
    destruct (N.eqb_spec c3 44) as [ -> | ]; [ | discriminate ].
    destruct (p_items f 41 (skip_ws r3)) as [ (vs, r4) | ] eqn:E3; [ | discriminate ]. injection H as <- <-.
    apply HI in E3 as (t3 & E3 & Ht3). apply skipped_to in E3 as (b3 & Hb3 & ->).
    exists (lit "(" ++ b ++ t ++ b2 ++ lit "," ++ b3 ++ t3). split; [ now rewrite <- !app_assoc | now constructor ]. }
  destruct (N.eqb_spec c 91) as [ -> | H91 ].
  { rewrite p_value_bracket in H. destruct (p_items f 93 (skip_ws s)) as [ (vs, r4) | ] eqn:E3; [ | discriminate ]. injection H as <- <-.
    apply HI in E3 as (t3 & E3 & Ht3). apply skipped_to in E3 as (b3 & Hb3 & ->).
    exists (lit "[" ++ b3 ++ t3). split; [ now rewrite <- !app_assoc | now constructor ]. }
  destruct (N.eqb_spec c 123) as [ -> | H123 ].
  { apply brace_inv in H as [ (vs & -> & Hne & H) | (kvs & -> & H) ].
    - apply HI1 in H as (t3 & E3 & Ht3). apply skipped_to in E3 as (b3 & Hb3 & ->). exists (lit "{" ++ b3 ++ t3). split; [ now rewrite <- !app_assoc | now constructor ].
    - apply HD1 in H as (t3 & E3 & Ht3). apply skipped_to in E3 as (b3 & Hb3 & ->). exists (lit "{" ++ b3 ++ t3). split; [ now rewrite <- !app_assoc | now constructor ]. }
  cbn [p_value] in H. change (chr "(") with 40 in H. change (chr "[") with 91 in H. change (chr "{") with 123 in H.
  replace (c =? 40) with false in H by lia. replace (c =? 91) with false in H by lia. replace (c =? 123) with false in H by lia.
  destruct ((c =? 39) || (c =? 34)).
  { destruct (p_string (c :: s)) as [ (t, rest) | ] eqn:E; [ | discriminate ]. injection H as <- <-.
    apply p_string_sound in E as (long & q & S & Hq & E & HS). exists (quotes long q ++ S). split; [ now rewrite <- app_assoc | ].
    constructor. exists [], long, q, S. auto. }
  destruct ((c =? chr "u") || (c =? chr "U")) eqn:Eu.
  { destruct (p_string s) as [ (t, rest) | ] eqn:E; [ | discriminate ]. injection H as <- <-.
    apply p_string_sound in E as (long & q & S & Hq & -> & HS). exists ([c] ++ quotes long q ++ S). split; [ now rewrite <- !app_assoc | ].
    constructor. exists [c], long, q, S. split; auto. split; [ | auto ]. right. apply orb_true_iff in Eu as [ Eu | Eu ]; apply N.eqb_eq in Eu; rewrite Eu; auto. }
  destruct (is_digit c || (c =? chr "+") || (c =? chr "-")) eqn:Ed.
  { destruct (p_int false (c :: s)) as [ (z, rest) | ] eqn:E; [ | discriminate ]. injection H as <- <-.
    apply p_int_sound in E as (src & z' & E & Hs & ->). exists src. split; auto. constructor. split; auto.
    intros c' r' ->. injection E as <- _. change (chr "+") with 43 in Ed. change (chr "-") with 45 in Ed. unfold is_digit in Ed. unfold blank. lia. }
  destruct (c =? chr "T").
  { destruct (p_word (lit "True") (c :: s)) eqn:E; [ | discriminate ]. injection H as <- <-. apply p_word_tail in E. exists (lit "True"). split; auto. constructor. }
  destruct (c =? chr "F").
  { destruct (p_word (lit "False") (c :: s)) eqn:E; [ | discriminate ]. injection H as <- <-. apply p_word_tail in E. exists (lit "False"). split; auto. constructor. }
  destruct (c =? chr "N"); [ | discriminate ].
  destruct (p_word (lit "None") (c :: s)) eqn:E; [ | discriminate ]. injection H as <- <-. apply p_word_tail in E. exists (lit "None"). split; auto. constructor.
Qed.
Lemma says_all f : says_value f /\ says_items f /\ says_entries f.
Proof.
  induction f as [ | f (HV & HI & HD) ].
  - split; [ | split ]; [ intros s v r H | intros close s v r H | intros s v r H ]; discriminate.
  - pose proof (says_items_step f HV HI). pose proof (says_entries_step f HV HD). split; [ now apply says_value_step | auto ].
Qed.
Lemma parse_sound src v : parse_literal src = Some v -> python_literal src v.
Proof.
  unfold parse_literal. destruct (p_value _ (skip_ws src)) as [ (x, r) | ] eqn:E; [ | discriminate ].
  destruct (skip_ws r) as [ | c r' ] eqn:Er; [ | discriminate ]. intros [= ->].
  apply (proj1 (says_all _)) in E as (t & E & Ht). apply skipped_to in E as (b1 & Hb1 & ->). apply skipped_to in Er as (b2 & Hb2 & ->).
  exists b1, t, b2. rewrite app_nil_r. auto.
Qed.
Lemma parse_exact src v : parse_literal src = Some v <-> python_literal src v.
Proof. split; [ apply parse_sound | apply parse_complete ]. Qed.
