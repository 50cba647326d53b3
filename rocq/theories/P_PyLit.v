(** The literal parser on printed values. *)
From Verif Require Import M_Base M_Text M_PyLit P_Base P_Text.
Open Scope N_scope.

(** [v] is the value of the text [T] whatever follows it (except a quote), with any sufficient fuel. *)
Definition no_quote (rest : text) : Prop := match rest with 39 :: _ => False | _ => True end.
Definition prints (T : text) (v : value) : Prop :=
  forall rest f, no_quote rest -> (2 * List.length T + 1 <= f)%nat -> p_value f (T ++ rest) = Some (v, rest).

(** First character of a text is not a blank and not one of the closing characters. *)
Definition starter (T : text) : Prop :=
  match T with [] => False | c :: _ => is_blank c = false /\ c <> 41 /\ c <> 93 /\ c <> 125 end.

Lemma skip_ws_nonblank c r : is_blank c = false -> skip_ws (c :: r) = c :: r.
Proof. intros H. cbn. now rewrite H. Qed.
Lemma skip_ws_starter T rest : starter T -> skip_ws (T ++ rest) = T ++ rest.
Proof. destruct T as [ | c r ]; [ destruct 1 | ]. intros (H & _). now apply skip_ws_nonblank. Qed.
Lemma skip_ws_space r : skip_ws (32 :: r) = skip_ws r.
Proof. reflexivity. Qed.
Lemma skip_ws_repeat n r : skip_ws (repeatN 32 n ++ r) = skip_ws r.
Proof.
  unfold repeatN. induction (N.to_nat n); auto.
Qed.

(** * Strings *)
Definition esc (c : N) : text :=
  if c =? 92 then [92; 92] else if c =? 39 then [92; 39] else if c =? 13 then [92; chr "r"]
  else if c =? 10 then [92; chr "n"] else [c].

Lemma p_str_esc s rest : p_str false 39 (flat_map esc s ++ 39 :: rest) = Some (s, rest).
Proof.
  induction s as [ | c s IH ]; [ reflexivity | ].
  cbn [flat_map]. unfold esc at 1.
  destruct (N.eqb_spec c 92) as [ -> | H1 ]; [ rewrite <- app_assoc; cbn; fold esc; now rewrite IH | ].
  destruct (N.eqb_spec c 39) as [ -> | H2 ]; [ rewrite <- app_assoc; cbn; now rewrite IH | ].
  destruct (N.eqb_spec c 13) as [ -> | H3 ]; [ rewrite <- app_assoc; cbn; now rewrite IH | ].
  destruct (N.eqb_spec c 10) as [ -> | H4 ]; [ rewrite <- app_assoc; cbn; now rewrite IH | ].
  rewrite <- app_assoc. cbn [app p_str].
  replace (c =? 92) with false by lia. replace (c =? 39) with false by lia.
  replace (c =? 10) with false by lia. replace (c =? 13) with false by lia.
  cbn [negb andb orb]. now rewrite IH.
Qed.

Lemma esc_head c : exists d r, esc c = d :: r /\ d <> 39.
Proof.
  unfold esc.
  destruct (N.eqb_spec c 92) as [ -> | H1 ]; [ do 2 eexists; split; [ reflexivity | lia ] | ].
  destruct (N.eqb_spec c 39) as [ -> | H2 ]; [ do 2 eexists; split; [ reflexivity | lia ] | ].
  destruct (N.eqb_spec c 13) as [ -> | H3 ]; [ do 2 eexists; split; [ reflexivity | lia ] | ].
  destruct (N.eqb_spec c 10) as [ -> | H4 ]; [ do 2 eexists; split; [ reflexivity | lia ] | ].
  do 2 eexists; split; [ reflexivity | lia ].
Qed.

Lemma p_string_esc s rest : no_quote rest -> p_string (39 :: flat_map esc s ++ 39 :: rest) = Some (s, rest).
Proof.
  intros Hq. unfold p_string. cbn [N.eqb Pos.eqb orb].
  pose proof (p_str_esc s rest) as P.
  destruct (flat_map esc s ++ 39 :: rest) as [ | q2 [ | q3 r3 ] ] eqn:E; auto.
  replace ((q2 =? 39) && (q3 =? 39)) with false; [ exact P | ].
  symmetry. apply andb_false_iff.
  destruct s as [ | c s ].
  - injection E as <- E. right. subst rest. cbn in Hq.
    destruct (N.eqb_spec q3 39); auto. subst. destruct Hq.
  - left. cbn [flat_map] in E. destruct (esc_head c) as (d & r & Hd & Hn). rewrite Hd in E.
    injection E as <- _. lia.
Qed.

Lemma prints_string s : prints (39 :: flat_map esc s ++ [39]) (VString s).
Proof.
  intros rest f Hq Hf. destruct f; [ lia | ].
  cbn [app p_value]. rewrite <- app_assoc. cbn [app]. cbn [N.eqb Pos.eqb orb].
  now rewrite p_string_esc.
Qed.

(** A string without special characters is its own escaped form. *)
Definition plain (s : text) : Prop := Forall (fun c => c <> 92 /\ c <> 39 /\ c <> 13 /\ c <> 10) s.
Lemma esc_plain s : plain s -> flat_map esc s = s.
Proof.
  induction 1; auto. cbn [flat_map]. rewrite IHForall. unfold esc.
  replace (x =? 92) with false by lia. replace (x =? 39) with false by lia.
  replace (x =? 13) with false by lia. replace (x =? 10) with false by lia. reflexivity.
Qed.
Lemma prints_plain s : plain s -> prints (39 :: s ++ [39]) (VString s).
Proof. intros H. rewrite <- (esc_plain s H) at 1. apply prints_string. Qed.

(** * Integers *)
Definition no_digit (rest : text) : Prop := match rest with [] => True | c :: _ => is_digit c = false /\ c <> 95 end.

Lemma p_digits_all (ok : N -> bool) ds rest :
  Forall (fun c => ok c = true) ds -> match rest with [] => True | c :: _ => ok c = false /\ c <> 95 end ->
  p_digits ok (ds ++ rest) = (ds, rest).
Proof.
  intros H Hr. induction H; cbn [app p_digits].
  - destruct rest as [ | c r ]; cbn; auto. destruct Hr as (-> & Hc). now replace (c =? 95) with false by lia.
  - rewrite H. now rewrite IHForall.
Qed.

Lemma p_nat_dec n rest : no_digit rest -> p_nat (dec n ++ rest) = Some (n, rest).
Proof.
  intros Hr. destruct (N.eq_dec n 0) as [ -> | Hn ].
  - rewrite dec_0. unfold p_nat. cbn [app]. change (48 =? 48) with true. cbv iota.
    pose proof (p_digits_all (N.eqb 48) [] rest) as P. cbn [app] in P. rewrite P; auto.
    destruct rest as [ | c r ]; auto. destruct Hr as (Hd & Hc). split; auto.
    destruct (N.eqb_spec 48 c); auto. subst. discriminate.
  - destruct (dec_head n Hn) as (c & r & E & Hc). pose proof (dec_digits n) as Hd. pose proof (dec_value_dec n) as Hv.
    rewrite E in *. cbn [app p_nat]. replace (c =? 48) with false by lia.
    apply Forall_cons_iff in Hd as (Hd0 & Hd). rewrite Hd0. now rewrite p_digits_all, Hv.
Qed.

Lemma dec_head_digit n : exists c r, dec n = c :: r /\ is_digit c = true.
Proof.
  pose proof (dec_digits n) as H. pose proof (dec_nonempty n). destruct (dec n) as [ | c r ]; [ congruence | ].
  apply Forall_cons_iff in H as (H & _). eauto.
Qed.

Lemma p_int_dec n rest : no_digit rest -> p_int false (dec n ++ rest) = Some (Z.of_N n, rest).
Proof.
  intros Hr. pose proof (p_nat_dec n rest Hr) as P. destruct (dec_head_digit n) as (c & r & E & Hc). rewrite E in *.
  cbn [app p_int]. unfold is_digit in Hc.
  replace (c =? chr "-") with false by (cbn; lia). replace (c =? chr "+") with false by (cbn; lia).
  replace (is_blank c) with false by (unfold is_blank; lia). cbn [app] in P. now rewrite P.
Qed.

Lemma p_value_dec n rest f : no_digit rest -> p_value (S f) (dec n ++ rest) = Some (VInteger (Z.of_N n), rest).
Proof.
  intros Hr. pose proof (p_int_dec n rest Hr) as P. destruct (dec_head_digit n) as (c & r & E & Hc). rewrite E in *.
  cbn [app p_value] in *. unfold is_digit in *.
  replace ((c =? 39) || (c =? 34)) with false by lia.
  replace ((c =? chr "u") || (c =? chr "U")) with false by (cbn; lia).
  rewrite Hc. cbn [orb]. now rewrite P.
Qed.

Lemma dec_starter n : starter (dec n).
Proof.
  destruct (dec_head_digit n) as (c & r & -> & Hc). unfold is_digit in Hc. cbn. unfold is_blank. lia.
Qed.

(** * Sequences *)
(** Items each followed by a comma and any blanks, then the closing character. *)
Definition blanks (s : text) : Prop := Forall (fun c => is_blank c = true) s.
Lemma skip_ws_blanks b r : blanks b -> skip_ws (b ++ r) = skip_ws r.
Proof. induction 1; auto. cbn [app skip_ws]. now rewrite H. Qed.

Fixpoint items_text (b : text) (l : list (text * value)) : text :=
  match l with
  | [] => []
  | (T, _) :: l' => T ++ 44 :: b ++ items_text b l'
  end.

Definition closer (close : N) : Prop := close = 41 \/ close = 93 \/ close = 125.
Lemma closer_nonblank close : closer close -> is_blank close = false.
Proof. intros [ -> | [ -> | -> ] ]; reflexivity. Qed.
Lemma starter_not_closer close T : closer close -> starter T -> match T with c :: _ => (c =? close) = false | [] => False end.
Proof. destruct T; cbn; auto. intros [ -> | [ -> | -> ] ] (? & ? & ? & ?); lia. Qed.

(** An item that parses when followed by a comma. *)
Definition item (T : text) (v : value) : Prop :=
  starter T /\ forall rest f, (2 * List.length T + 1 <= f)%nat -> p_value f (T ++ 44 :: rest) = Some (v, 44 :: rest).

Lemma prints_item T v : starter T -> prints T v -> item T v.
Proof. intros Hs H. split; auto. intros rest f Hf. now apply H. Qed.
Lemma dec_item n : item (dec n) (VInteger (Z.of_N n)).
Proof.
  split; [ apply dec_starter | ]. intros rest f Hf. destruct f; [ lia | ]. apply p_value_dec. cbn. split; [ reflexivity | lia ].
Qed.

Lemma skip_items b l close rest : blanks b -> closer close -> (forall T v, In (T, v) l -> item T v) ->
  skip_ws (b ++ items_text b l ++ close :: rest) = items_text b l ++ close :: rest.
Proof.
  intros Hb Hc Hl. rewrite skip_ws_blanks by auto. destruct l as [ | (T, v) l ]; cbn [items_text app].
  - apply skip_ws_nonblank. now apply closer_nonblank.
  - rewrite <- !app_assoc. apply skip_ws_starter. apply (Hl T v). now left.
Qed.

Lemma p_items_ok close b l : closer close -> blanks b -> (forall T v, In (T, v) l -> item T v) ->
  forall rest f, (2 * List.length (items_text b l) + 2 <= f)%nat ->
  p_items f close (items_text b l ++ close :: rest) = Some (map snd l, rest).
Proof.
  intros Hc Hb. induction l as [ | (T, v) l IH ]; intros Hl rest f Hf.
  - destruct f; [ cbn in Hf; lia | ]. cbn [items_text app p_items map]. now rewrite N.eqb_refl.
  - destruct (Hl T v) as (Hs & Hp); [ now left | ].
    destruct f; [ lia | ].
    assert (E : items_text b ((T, v) :: l) ++ close :: rest = T ++ 44 :: b ++ items_text b l ++ close :: rest)
      by (cbn [items_text]; rewrite <- !app_assoc; cbn [app]; now rewrite <- !app_assoc).
    rewrite E. cbn [items_text] in Hf. rewrite app_length in Hf. cbn [List.length] in Hf. rewrite app_length in Hf.
    pose proof (starter_not_closer close T Hc Hs) as Hn. specialize (Hp (b ++ items_text b l ++ close :: rest) f).
    destruct T as [ | c T' ]; [ destruct Hs | ]. cbn [app] in *. cbn [p_items]. rewrite Hn.
    cbn [List.length] in *. rewrite Hp by lia.
    cbn [skip_ws]. change (is_blank 44) with false. cbv iota.
    replace (44 =? close) with false by (destruct Hc as [ -> | [ -> | -> ] ]; reflexivity).
    change (44 =? chr ",") with true. cbv iota.
    rewrite skip_items; auto; [ | intros; apply Hl; now right ].
    rewrite IH by (try (intros; apply Hl; now right); lia). reflexivity.
Qed.

(** The last item may omit its comma. *)
Lemma p_items_last close b l T v : closer close -> blanks b -> (forall T v, In (T, v) l -> item T v) ->
  starter T -> prints T v ->
  forall rest f, (2 * List.length (items_text b l) + 2 * List.length T + 2 <= f)%nat ->
  p_items f close (items_text b l ++ T ++ close :: rest) = Some (map snd l ++ [v], rest).
Proof.
  intros Hc Hb Hl Hs Hp. induction l as [ | (T', v') l IH ]; intros rest f Hf.
  - cbn [items_text app List.length] in *. destruct f; [ lia | ].
    pose proof (starter_not_closer close T Hc Hs) as Hn.
    specialize (Hp (close :: rest) f). destruct T as [ | c T0 ]; [ destruct Hs | ]. cbn [app] in *. cbn [p_items].
    rewrite Hn. rewrite Hp by (try lia; destruct Hc as [ -> | [ -> | -> ] ]; exact I).
    rewrite skip_ws_nonblank by (now apply closer_nonblank). now rewrite N.eqb_refl.
  - destruct (Hl T' v') as (Hs' & Hp'); [ now left | ].
    destruct f; [ lia | ].
    assert (E : items_text b ((T', v') :: l) ++ T ++ close :: rest = T' ++ 44 :: b ++ items_text b l ++ T ++ close :: rest)
      by (cbn [items_text]; rewrite <- !app_assoc; cbn [app]; now rewrite <- !app_assoc).
    rewrite E. cbn [items_text] in Hf. rewrite app_length in Hf. cbn [List.length] in Hf. rewrite app_length in Hf.
    pose proof (starter_not_closer close T' Hc Hs') as Hn.
    specialize (Hp' (b ++ items_text b l ++ T ++ close :: rest) f).
    destruct T' as [ | c T0 ]; [ destruct Hs' | ]. cbn [app] in *. cbn [p_items]. rewrite Hn.
    cbn [List.length] in *. rewrite Hp' by lia.
    cbn [skip_ws]. change (is_blank 44) with false. cbv iota.
    replace (44 =? close) with false by (destruct Hc as [ -> | [ -> | -> ] ]; reflexivity).
    change (44 =? chr ",") with true. cbv iota.
    assert (skip_ws (b ++ items_text b l ++ T ++ close :: rest) = items_text b l ++ T ++ close :: rest) as ->.
    { rewrite skip_ws_blanks by auto. destruct l as [ | (T1, v1) l ]; cbn [items_text app].
      - now apply skip_ws_starter.
      - rewrite <- !app_assoc. apply skip_ws_starter. apply (Hl T1 v1). right; now left. }
    rewrite IH by (try (intros; apply Hl; now right); lia). reflexivity.
Qed.

Lemma prints_list b l : blanks b -> (forall T v, In (T, v) l -> item T v) ->
  prints (91 :: items_text b l ++ [93]) (VList (map snd l)).
Proof.
  intros Hb Hl rest f _ Hf. destruct f; [ lia | ].
  cbn [app p_value]. rewrite <- app_assoc. cbn [app].
  change (91 =? 39) with false. change (91 =? 34) with false. change (91 =? chr "u") with false.
  change (91 =? chr "U") with false. change (is_digit 91) with false. change (91 =? chr "+") with false.
  change (91 =? chr "-") with false. change (91 =? chr "(") with false. change (91 =? chr "[") with true.
  cbn [orb]. change (chr "]") with 93.
  change (items_text b l ++ 93 :: rest) with ([] ++ items_text b l ++ 93 :: rest).
  assert (skip_ws (items_text b l ++ 93 :: rest) = items_text b l ++ 93 :: rest) as E.
  { destruct l as [ | (T, v) l ]; cbn [items_text app]; auto.
    rewrite <- !app_assoc. apply skip_ws_starter. apply (Hl T v). now left. }
  cbn [app]. rewrite E. cbn [List.length] in Hf. rewrite app_length in Hf. cbn [List.length] in Hf.
  rewrite p_items_ok; auto; [ now right; left | lia ].
Qed.

(** Tuples: every item followed by a comma. *)
Lemma prints_tuple b l : blanks b -> (forall T v, In (T, v) l -> item T v) ->
  prints (40 :: items_text b l ++ [41]) (VTuple (map snd l)).
Proof.
  intros Hb Hl rest f _ Hf. destruct f; [ lia | ].
  cbn [app p_value]. rewrite <- app_assoc. cbn [app].
  change (40 =? 39) with false. change (40 =? 34) with false. change (40 =? chr "u") with false.
  change (40 =? chr "U") with false. change (is_digit 40) with false. change (40 =? chr "+") with false.
  change (40 =? chr "-") with false. change (40 =? chr "(") with true. cbn [orb].
  cbn [List.length] in Hf. rewrite app_length in Hf. cbn [List.length] in Hf.
  destruct l as [ | (T, v) l ]; [ reflexivity | ].
  destruct (Hl T v) as (Hs & Hp); [ now left | ].
  assert (E : items_text b ((T, v) :: l) ++ 41 :: rest = T ++ 44 :: b ++ items_text b l ++ 41 :: rest)
    by (cbn [items_text]; rewrite <- !app_assoc; cbn [app]; now rewrite <- !app_assoc).
  rewrite E, skip_ws_starter by auto.
  cbn [items_text] in Hf. rewrite app_length in Hf. cbn [List.length] in Hf. rewrite app_length in Hf.
  specialize (Hp (b ++ items_text b l ++ 41 :: rest) f).
  pose proof (starter_not_closer 41 T (or_introl eq_refl) Hs) as Hn.
  destruct T as [ | c T' ]; [ destruct Hs | ]. cbn [app] in *. change (chr ")") with 41. rewrite Hn.
  cbn [List.length] in *. rewrite Hp by lia.
  cbn [skip_ws]. change (is_blank 44) with false. cbv iota. change (44 =? chr ",") with true. cbv iota.
  rewrite skip_items; auto; [ | now left | intros; apply Hl; now right ].
  rewrite p_items_ok; auto; [ now left | intros; apply Hl; now right | lia ].
Qed.

(** Tuples: at least one item followed by a comma, last one without. *)
Lemma prints_tuple_last b T0 v0 l T v : blanks b -> item T0 v0 -> (forall T v, In (T, v) l -> item T v) ->
  starter T -> prints T v ->
  prints (40 :: items_text b ((T0, v0) :: l) ++ T ++ [41]) (VTuple (v0 :: map snd l ++ [v])).
Proof.
  intros Hb (Hs0 & Hp0) Hl Hs Hp rest f _ Hf. destruct f; [ lia | ].
  cbn [app p_value].
  change (40 =? 39) with false. change (40 =? 34) with false. change (40 =? chr "u") with false.
  change (40 =? chr "U") with false. change (is_digit 40) with false. change (40 =? chr "+") with false.
  change (40 =? chr "-") with false. change (40 =? chr "(") with true. cbn [orb].
  assert (E : (items_text b ((T0, v0) :: l) ++ T ++ [41]) ++ rest = T0 ++ 44 :: b ++ items_text b l ++ T ++ 41 :: rest)
    by (cbn [items_text]; rewrite <- !app_assoc; cbn [app]; now rewrite <- !app_assoc).
  cbn [List.length items_text] in Hf. rewrite !app_length in Hf. cbn [List.length] in Hf. rewrite !app_length in Hf.
  rewrite E, skip_ws_starter by auto.
  specialize (Hp0 (b ++ items_text b l ++ T ++ 41 :: rest) f).
  pose proof (starter_not_closer 41 T0 (or_introl eq_refl) Hs0) as Hn.
  destruct T0 as [ | c T' ]; [ destruct Hs0 | ]. cbn [app] in *. change (chr ")") with 41. rewrite Hn.
  cbn [List.length] in *. rewrite Hp0 by lia.
  cbn [skip_ws]. change (is_blank 44) with false. cbv iota. change (44 =? chr ",") with true. cbv iota.
  assert (skip_ws (b ++ items_text b l ++ T ++ 41 :: rest) = items_text b l ++ T ++ 41 :: rest) as ->.
  { rewrite skip_ws_blanks by auto. destruct l as [ | (T1, v1) l ]; cbn [items_text app].
    - now apply skip_ws_starter.
    - rewrite <- !app_assoc. apply skip_ws_starter. apply (Hl T1 v1). now left. }
  rewrite p_items_last with (v := v); auto; [ now left | lia ].
Qed.

(** * Dictionaries *)
(** Entries "K: V, ". *)
Record entry := { e_kt : text; e_k : value; e_vt : text; e_v : value }.
Definition entry_ok (e : entry) : Prop := starter (e_kt e) /\ prints (e_kt e) (e_k e) /\ item (e_vt e) (e_v e).
Definition entry_pair (e : entry) : value * value := (e_k e, e_v e).
Fixpoint entries_text (l : list entry) : text :=
  match l with
  | [] => []
  | e :: l' => e_kt e ++ 58 :: 32 :: e_vt e ++ 44 :: 32 :: entries_text l'
  end.

Lemma entries_len e l : List.length (entries_text (e :: l)) =
  (List.length (e_kt e) + List.length (e_vt e) + List.length (entries_text l) + 4)%nat.
Proof. cbn [entries_text]. rewrite app_length. cbn [List.length]. rewrite app_length. cbn [List.length]. lia. Qed.

Lemma entries_skip l rest : Forall entry_ok l -> skip_ws (32 :: entries_text l ++ 125 :: rest) = entries_text l ++ 125 :: rest.
Proof.
  intros H. rewrite skip_ws_space. destruct H as [ | e l (Hs & _) _ ]; [ reflexivity | ].
  cbn [entries_text]. rewrite <- app_assoc. now apply skip_ws_starter.
Qed.

Lemma entries_app e l rest : entries_text (e :: l) ++ rest = e_kt e ++ 58 :: 32 :: e_vt e ++ 44 :: 32 :: entries_text l ++ rest.
Proof. cbn [entries_text]. rewrite <- app_assoc. cbn [app]. rewrite <- app_assoc. reflexivity. Qed.

Lemma p_dict_ok l : Forall entry_ok l -> forall rest f, (2 * List.length (entries_text l) + 2 <= f)%nat ->
  p_dict f (entries_text l ++ 125 :: rest) = Some (map entry_pair l, rest).
Proof.
  induction 1 as [ | e l He Hl IH ]; intros rest f Hf.
  - destruct f; [ cbn in Hf; lia | ]. reflexivity.
  - rewrite entries_len in Hf. destruct f; [ lia | ]. rewrite entries_app.
    pose proof He as (Hsk & Hpk & Hsv & Hpv).
    specialize (Hpk (58 :: 32 :: e_vt e ++ 44 :: 32 :: entries_text l ++ 125 :: rest) f I).
    pose proof (starter_not_closer 125 (e_kt e) (or_intror (or_intror eq_refl)) Hsk) as Hn.
    destruct (e_kt e) as [ | k0 kt ]; [ destruct Hsk | ]. cbn [app] in *. cbn [p_dict].
    change (chr "}") with 125. rewrite Hn. cbn [List.length] in *. rewrite Hpk by lia.
    rewrite (skip_ws_nonblank 58) by reflexivity. change (58 =? chr ":") with true. cbv iota.
    rewrite skip_ws_space, skip_ws_starter by auto. rewrite Hpv by lia.
    rewrite (skip_ws_nonblank 44) by reflexivity. change (44 =? 125) with false. change (44 =? chr ",") with true. cbv iota.
    rewrite entries_skip by auto. rewrite IH by lia. reflexivity.
Qed.

Lemma prints_dict l : Forall entry_ok l -> prints (123 :: entries_text l ++ [125]) (VDict (map entry_pair l)).
Proof.
  intros H rest f _ Hf. destruct f; [ lia | ].
  cbn [app p_value]. rewrite <- app_assoc. cbn [app].
  change (123 =? 39) with false. change (123 =? 34) with false. change (123 =? chr "u") with false.
  change (123 =? chr "U") with false. change (is_digit 123) with false. change (123 =? chr "+") with false.
  change (123 =? chr "-") with false. change (123 =? chr "(") with false. change (123 =? chr "[") with false.
  change (123 =? chr "{") with true. cbn [orb].
  cbn [List.length] in Hf. rewrite app_length in Hf. cbn [List.length] in Hf.
  destruct H as [ | e l He Hl ]; [ reflexivity | ].
  rewrite entries_len in Hf. rewrite entries_app.
  pose proof He as (Hsk & Hpk & Hsv & Hpv). rewrite skip_ws_starter by auto.
  specialize (Hpk (58 :: 32 :: e_vt e ++ 44 :: 32 :: entries_text l ++ 125 :: rest) f I).
  pose proof (starter_not_closer 125 (e_kt e) (or_intror (or_intror eq_refl)) Hsk) as Hn.
  destruct (e_kt e) as [ | k0 kt ]; [ destruct Hsk | ]. cbn [app] in *.
  change (chr "}") with 125. rewrite Hn. cbn [List.length] in *. rewrite Hpk by lia.
  rewrite (skip_ws_nonblank 58) by reflexivity. change (58 =? chr ":") with true. cbv iota.
  rewrite skip_ws_space, skip_ws_starter by auto. rewrite Hpv by lia.
  rewrite (skip_ws_nonblank 44) by reflexivity. change (44 =? 125) with false. change (44 =? chr ",") with true. cbv iota.
  rewrite entries_skip by auto. rewrite p_dict_ok by (auto; lia). reflexivity.
Qed.

Lemma prints_true : prints (lit "True") (VBool true).
Proof. intros rest f _ Hf. destruct f; [ cbn in Hf; lia | ]. reflexivity. Qed.
Lemma prints_false : prints (lit "False") (VBool false).
Proof. intros rest f _ Hf. destruct f; [ cbn in Hf; lia | ]. reflexivity. Qed.

(** A whole literal, surrounded by blanks. *)
Lemma parse_literal_prints T v b : starter T -> prints T v -> blanks b -> parse_literal (T ++ b) = Some v.
Proof.
  intros Hs Hp Hb. unfold parse_literal. rewrite skip_ws_starter by auto.
  rewrite Hp; [ | | rewrite app_length; lia ].
  - pose proof (skip_ws_blanks b [] Hb) as E. rewrite app_nil_r in E. now rewrite E.
  - destruct Hb as [ | c b Hc _ ]; cbn; auto. destruct (N.eqb_spec c 39); [ now subst | ].
    destruct c as [ | p ]; auto. repeat (destruct p as [ p | p | ]; auto).
Qed.
