(** Type strings: the parser is total, exact, and inverts the printer. *)
From Verif Require Import M_Base M_Text M_TypeStr S_TypeStr P_Base P_Text.
Open Scope N_scope.

Lemma positional_value_acc ds : forall acc,
  fold_left (fun acc c => acc * 10 + (c - 48)) ds acc = acc * 10 ^ lenN ds + positional ds.
Proof.
  induction ds; intros acc; cbn [fold_left positional].
  - rewrite lenN_nil, N.pow_0_r. lia.
  - rewrite IHds, lenN_cons, N.pow_add_r, N.pow_1_r. unfold lenN. lia.
Qed.
Lemma positional_value ds : dec_value ds = positional ds.
Proof. unfold dec_value. rewrite positional_value_acc. lia. Qed.

Lemma numeral_digits ds n : numeral ds n -> Forall (fun c => is_digit c = true) ds /\ ds <> [] /\ dec_value ds = n.
Proof.
  intros (H1 & H2 & H3). split; [ | split; auto; now rewrite positional_value ].
  apply Forall_forall. intros d Hd. apply H2 in Hd. unfold is_digit. lia.
Qed.
Lemma numeral_intro ds : Forall (fun c => is_digit c = true) ds -> ds <> [] -> numeral ds (dec_value ds).
Proof.
  intros H1 H2. split; auto. split; [ | now rewrite positional_value ].
  intros d Hd. rewrite Forall_forall in H1. apply H1 in Hd. unfold is_digit in Hd. lia.
Qed.

Lemma mark_char c e : endianness_from_char c = Some e <-> exists m, In (m, e) mark_table /\ lit m = [c].
Proof.
  unfold endianness_from_char. split.
  - destruct (N.eqb_spec c (chr "<")); [ intros [= <-]; subst; exists "<"%string; split; [ cbn; auto | reflexivity ] | ].
    destruct (N.eqb_spec c (chr ">")); [ intros [= <-]; subst; exists ">"%string; split; [ cbn; auto | reflexivity ] | ].
    destruct (N.eqb_spec c (chr "|")); [ intros [= <-]; subst; exists "|"%string; split; [ cbn; auto | reflexivity ] | ].
    discriminate.
  - intros (m & Hin & Hl). cbn in Hin.
    repeat (destruct Hin as [ [= <- <-] | Hin ]; [ injection Hl as <-; reflexivity | ]). destruct Hin.
Qed.

Lemma code_char c t : type_char_from_char c = Some t <-> exists m, In (m, t) code_table /\ lit m = [c].
Proof.
  unfold type_char_from_char. split.
  - Ltac code_step s := match goal with |- context [N.eqb ?c (chr s)] =>
      destruct (N.eqb_spec c (chr s)) as [ -> | ]; [ cbn [orb]; intros [= <-]; exists s; split; [ cbn; tauto | reflexivity ] | cbn [orb] ] end.
    code_step "b"%string. code_step "i"%string. code_step "u"%string. code_step "f"%string. code_step "c"%string.
    code_step "m"%string. code_step "M"%string. code_step "S"%string. code_step "a"%string. code_step "U"%string.
    code_step "O"%string. code_step "V"%string. discriminate.
  - intros (m & Hin & Hl). cbn in Hin.
    repeat (destruct Hin as [ [= <- <-] | Hin ]; [ injection Hl as <-; reflexivity | ]). destruct Hin.
Qed.

Lemma unit_name s u : time_units_from_str s = Some u <-> exists m, In (m, u) unit_table /\ lit m = s.
Proof.
  unfold time_units_from_str. split.
  - Ltac unit_step n := match goal with |- context [eqb_list ?s (lit n)] =>
      let E := fresh in destruct (eqb_list s (lit n)) eqn:E;
      [ apply eqb_list_eq in E; intros [= <-]; exists n; split; [ cbn; tauto | auto ] | clear E ] end.
    unit_step "Y"%string. unit_step "M"%string. unit_step "W"%string. unit_step "D"%string. unit_step "h"%string.
    unit_step "m"%string. unit_step "s"%string. unit_step "ms"%string. unit_step "us"%string. unit_step "ns"%string.
    unit_step "ps"%string. unit_step "fs"%string. unit_step "as"%string. discriminate.
  - intros (m & Hin & <-). cbn in Hin.
    repeat (destruct Hin as [ [= <- <-] | Hin ]; [ reflexivity | ]). destruct Hin.
Qed.

Lemma mark_table_one m e : In (m, e) mark_table -> exists c, lit m = [c].
Proof. intros H. cbn in H. repeat (destruct H as [ [= <- <-] | H ]; [ eexists; reflexivity | ]). destruct H. Qed.
Lemma code_table_one m e : In (m, e) code_table -> exists c, lit m = [c].
Proof. intros H. cbn in H. repeat (destruct H as [ [= <- <-] | H ]; [ eexists; reflexivity | ]). destruct H. Qed.

Lemma parse_units_spec rem ou : parse_units rem = Some ou <->
  match ou with
  | None => rem = []
  | Some u => exists name, In (name, u) unit_table /\ rem = lit "[" ++ lit name ++ lit "]"
  end.
Proof.
  unfold parse_units. destruct rem as [ | c r ].
  - split; [ intros [= <-]; auto | ]. destruct ou; auto. intros (? & ? & H). discriminate.
  - destruct (rev r) as [ | l m ] eqn:E.
    + apply (f_equal (@rev N)) in E. rewrite rev_involutive in E. subst r.
      split; [ discriminate | ]. destruct ou; [ | discriminate ]. intros (n & _ & H).
      injection H as _ H. symmetry in H. apply app_eq_nil in H. now destruct H.
    + apply (f_equal (@rev N)) in E. rewrite rev_involutive in E. cbn [rev] in E.
      destruct ((c =? chr "[") && (l =? chr "]")) eqn:B.
      * apply andb_true_iff in B. rewrite !N.eqb_eq in B. destruct B as (-> & ->). subst r.
        destruct (time_units_from_str (rev m)) as [ u | ] eqn:U; cbn [option_map].
        -- apply unit_name in U as (name & Hin & Hn). split.
           ++ intros [= <-]. exists name. split; auto. rewrite Hn. reflexivity.
           ++ destruct ou; [ | discriminate ]. intros (name' & Hin' & H). injection H as H.
              change (lit "]") with [chr "]"] in H. apply app_inj_tail in H as (H & _).
              assert (X : time_units_from_str (rev m) = Some t) by (apply unit_name; eauto).
              assert (Y : time_units_from_str (rev m) = Some u) by (apply unit_name; eauto). congruence.
        -- split; [ discriminate | ]. destruct ou; [ | discriminate ]. intros (name' & Hin' & H). injection H as H.
           change (lit "]") with [chr "]"] in H. apply app_inj_tail in H as (H & _).
           assert (X : time_units_from_str (rev m) = Some t) by (apply unit_name; eauto). congruence.
      * split; [ discriminate | ]. destruct ou; [ | discriminate ]. intros (n & _ & H).
        injection H as -> H. subst r. change (lit "]") with [chr "]"] in H. apply app_inj_tail in H as (_ & ->).
        discriminate.
Qed.

Lemma validate_spec t t' : ts_size t < 2 ^ 64 -> (ts_char t = TObject -> ts_size t = 0) ->
  validate t = TsOk t' <-> t' = t /\ legal t.
Proof.
  intros Hn HO. unfold validate, legal.
  destruct t as [e c n u]; cbn [ts_char ts_size ts_units ts_endianness] in *.
  destruct c, e, u; cbn [requires_endianness valid_sizes has_units existsb xorb andb];
    repeat match goal with |- context [N.eqb n ?k] => destruct (N.eqb_spec n k) as [ -> | ] end; cbn [negb orb andb];
    (split; [ intros H; try discriminate H; injection H as <-; (split; [ reflexivity | ])
            | intros (-> & H); try reflexivity; exfalso ]);
    try (now intuition (congruence || auto)); try lia;
    specialize (HO eq_refl); subst; now intuition (congruence || auto).
Qed.

Lemma validate_no_panic t : validate t <> TsPanic.
Proof.
  unfold validate.
  repeat match goal with |- context [if ?b then _ else _] => destruct b; try discriminate end.
Qed.

(** Shape of a text that reaches the parser's [unwrap] calls. *)
Lemma parse_no_panic s : type_str_parse s <> TsPanic.
Proof.
  unfold type_str_parse.
  destruct (lenN (utf8 s) <? 2) eqn:L; [ discriminate | ].
  destruct s as [ | c0 r0 ]; [ discriminate L | ].
  destruct (endianness_from_char c0) eqn:E0; [ | discriminate ].
  destruct r0 as [ | c1 r1 ].
  { exfalso. apply mark_char in E0 as (m & Hin & Hl). cbn in Hin.
    repeat (destruct Hin as [ [= <- <-] | Hin ]; [ injection Hl as <-; vm_compute in L; discriminate | ]). destruct Hin. }
  destruct (type_char_from_char c1); [ | discriminate ].
  destruct (span is_digit r1) as (digits, rem).
  match goal with |- match ?x with _ => _ end <> _ => destruct x; [ discriminate | ] end.
  destruct (parse_units rem); [ apply validate_no_panic | discriminate ].
Qed.

Lemma parse_units_head rem u : parse_units rem = Some u -> match rem with [] => True | c :: _ => is_digit c = false end.
Proof.
  intros H. apply parse_units_spec in H. destruct u as [ u | ]; [ | now subst ].
  destruct H as (? & _ & ->). reflexivity.
Qed.

Lemma span_digits_app a b :
  Forall (fun c => is_digit c = true) a -> match b with [] => True | c :: _ => is_digit c = false end ->
  span is_digit (a ++ b) = (a, b).
Proof.
  intros Ha Hb. destruct b as [ | c r ]; [ rewrite app_nil_r; now apply span_all | now apply span_app_stop ].
Qed.

Definition mk e t n u := {| ts_endianness := e; ts_char := t; ts_size := n; ts_units := u |}.

(** Factored form of the parser's body on a text with at least two characters. *)
Lemma parse_unfold e t c0 c1 digits rem :
  endianness_from_char c0 = Some e -> type_char_from_char c1 = Some t ->
  Forall (fun c => is_digit c = true) digits ->
  match rem with [] => True | c :: _ => is_digit c = false end ->
  type_str_parse (c0 :: c1 :: digits ++ rem) =
  match match t, digits with
        | TObject, [] => inr 0
        | TObject, _ => inl SyntaxError
        | _, [] => inl SyntaxError
        | _, _ => match parse_u64 digits with Some n => inr n | None => inl ParseIntError end
        end with
  | inl err => TsErr err
  | inr n =>
    match parse_units rem with
    | None => TsErr SyntaxError
    | Some u => validate (mk e t n u)
    end
  end.
Proof.
  intros H0 H1 Hd Hr. unfold type_str_parse.
  replace (lenN (utf8 (c0 :: c1 :: digits ++ rem)) <? 2) with false
    by (pose proof (utf8_len (c0 :: c1 :: digits ++ rem)) as HL; rewrite !lenN_cons in HL; lia).
  rewrite H0, H1, span_digits_app by auto. reflexivity.
Qed.

(** The parser's language. *)
Lemma parse_exact s t : type_str_parse s = TsOk t <-> spells s t.
Proof.
  split.
  - intros H.
    assert (HL : 2 <= lenN (utf8 s)) by (unfold type_str_parse in H; destruct (lenN (utf8 s) <? 2) eqn:L; [ discriminate | lia ]).
    assert (Hform : exists c0 c1 r e tc, s = c0 :: c1 :: r /\ endianness_from_char c0 = Some e /\ type_char_from_char c1 = Some tc).
    { unfold type_str_parse in H. replace (lenN (utf8 s) <? 2) with false in H by lia.
      destruct s as [ | c0 [ | c1 r ] ]; try discriminate; destruct (endianness_from_char c0) eqn:E0; try discriminate.
      destruct (type_char_from_char c1) eqn:E1; try discriminate. do 5 eexists; eauto. }
    destruct Hform as (c0 & c1 & r & e & tc & -> & E0 & E1).
    destruct (span is_digit r) as (digits, rem) eqn:Sp. apply span_spec in Sp as (-> & Hd & Hr).
    rewrite (parse_unfold e tc) in H by auto.
    destruct tc; destruct digits as [ | d0 ds ]; try discriminate;
      try (destruct (parse_u64 (d0 :: ds)) as [ n | ] eqn:PU; [ | discriminate ]);
      (destruct (parse_units rem) as [ u | ] eqn:U; [ | discriminate ]);
      try (unfold parse_u64 in PU; destruct (dec_value (d0 :: ds) <? 2 ^ 64) eqn:B; [ injection PU as <- | discriminate ]);
      apply validate_spec in H as (-> & Hlegal); cbn [ts_size ts_char mk]; try lia; try discriminate; auto;
      apply mark_char in E0 as (m0 & Hin0 & Hl0); apply code_char in E1 as (m1 & Hin1 & Hl1);
      apply parse_units_spec in U.
    all: match type of Hr with match ?r with _ => _ end => idtac end.
    all: match goal with
         | Hd : Forall _ (?d0 :: ?ds) |- _ => exists m0, m1, (d0 :: ds), rem
         | _ => exists m0, m1, [], rem
         end.
    all: cbn [mk ts_endianness ts_char ts_size ts_units]; rewrite Hl0, Hl1.
    all: split; [ reflexivity | split; [ assumption | split; [ assumption | split; [ | split ] ] ] ]; auto.
    all: apply numeral_intro; auto; discriminate.
  - intros (m0 & m1 & size & unit & -> & Hin0 & Hin1 & Hsize & Hunit & Hlegal).
    destruct (mark_table_one _ _ Hin0) as (c0 & Hc0). destruct (code_table_one _ _ Hin1) as (c1 & Hc1).
    rewrite Hc0, Hc1. cbn [app].
    assert (U : parse_units unit = Some (ts_units t)) by (now apply parse_units_spec).
    assert (E0 : endianness_from_char c0 = Some (ts_endianness t)) by (apply mark_char; eauto).
    assert (E1 : type_char_from_char c1 = Some (ts_char t)) by (apply code_char; eauto).
    assert (Hn : ts_size t < 2 ^ 64).
    { revert Hlegal. unfold legal. destruct (ts_char t); intros; lia. }
    assert (HO : ts_char t = TObject -> ts_size t = 0).
    { intros Ht. revert Hlegal. unfold legal. rewrite Ht. tauto. }
    assert (Hd : Forall (fun c => is_digit c = true) size).
    { destruct (match ts_char t with TObject => true | _ => false end); [ subst; constructor | ].
      now apply numeral_digits in Hsize. }
    rewrite (parse_unfold (ts_endianness t) (ts_char t)) by (auto; eapply parse_units_head; eauto).
    assert (V : validate (mk (ts_endianness t) (ts_char t) (ts_size t) (ts_units t)) = TsOk t).
    { replace (mk _ _ _ _) with t by (now destruct t). apply validate_spec; auto. }
    rewrite U.
    destruct (ts_char t) eqn:Ht; try (subst size; rewrite HO in V by auto; exact V);
      apply numeral_digits in Hsize as (_ & Hne & Hv); (destruct size as [ | d ds ]; [ congruence | ]);
      unfold parse_u64; rewrite Hv; replace (ts_size t <? 2 ^ 64) with true by lia; exact V.
Qed.

(** The printer produces a spelling. *)
Lemma display_spells t : legal t -> spells (type_str_display t) t.
Proof.
  intros H. unfold type_str_display.
  assert (exists m, In (m, ts_endianness t) mark_table /\ endianness_to_str (ts_endianness t) = lit m) as (m & Hm & ->).
  { destruct (ts_endianness t); eexists; (split; [ | reflexivity ]); cbn; tauto. }
  assert (exists m, In (m, ts_char t) code_table /\ type_char_to_str (ts_char t) = lit m) as (c & Hc & ->).
  { destruct (ts_char t); eexists; (split; [ | reflexivity ]); cbn; tauto. }
  exists m, c, (if ts_pickled t then [] else dec (ts_size t)),
    (match ts_units t with Some u => lit "[" ++ time_units_to_str u ++ lit "]" | None => [] end).
  split; [ reflexivity | ]. split; auto. split; auto. split; [ | split; auto ].
  - unfold ts_pickled. destruct (match ts_char t with TObject => true | _ => false end); auto.
    pose proof (numeral_intro (dec (ts_size t)) (dec_digits _) (dec_nonempty _)) as X. now rewrite dec_value_dec in X.
  - destruct (ts_units t) as [ u | ]; auto.
    destruct u; eexists; (split; [ | reflexivity ]); cbn; tauto.
Qed.

Lemma spells_legal s t : spells s t -> legal t.
Proof. intros (? & ? & ? & ? & H). tauto. Qed.

Lemma display_parse t : legal t -> type_str_parse (type_str_display t) = TsOk t.
Proof. intros H. apply parse_exact. now apply display_spells. Qed.

Lemma parse_display_parse s t : type_str_parse s = TsOk t -> type_str_parse (type_str_display t) = TsOk t.
Proof. intros H. apply display_parse. apply parse_exact in H. eapply spells_legal; eauto. Qed.

Lemma display_canonical t : legal t -> canonical (type_str_display t).
Proof.
  intros H. unfold type_str_display, canonical.
  destruct (ts_endianness t), (ts_char t) eqn:Ht; cbn [endianness_to_str type_char_to_str lit app];
    (split; [ intros m r [= ] | intros m c d r He; injection He as _ _ He ]);
    unfold ts_pickled in He; rewrite Ht in He; cbn [app] in He;
    try (destruct (ts_units t); discriminate He).
  all: destruct (N.eq_dec (ts_size t) 0) as [ E | E ];
    [ rewrite E, dec_0 in He; injection He as He; destruct (ts_units t); [ injection He as <- _; cbn; lia | discriminate ]
    | apply dec_head in E as (x & y & E & Hx); rewrite E in He; injection He as He _; lia ].
Qed.


(** Which error. *)
Lemma parse_syntax_error s : well_spelled s -> type_str_parse s <> TsErr SyntaxError.
Proof.
  intros (m0 & m1 & size & unit & e & t & -> & Hin0 & Hin1 & Hsize & Hunit).
  destruct (mark_table_one _ _ Hin0) as (c0 & Hc0). destruct (code_table_one _ _ Hin1) as (c1 & Hc1).
  rewrite Hc0, Hc1. cbn [app].
  assert (exists u, parse_units unit = Some u) as (u & U).
  { destruct Hunit as [ -> | (name & u & Hin & ->) ]; [ now exists None | ].
    exists (Some u). apply parse_units_spec. eauto. }
  assert (E0 : endianness_from_char c0 = Some e) by (apply mark_char; eauto).
  assert (E1 : type_char_from_char c1 = Some t) by (apply code_char; eauto).
  assert (Hd : Forall (fun c => is_digit c = true) size).
  { destruct (match t with TObject => true | _ => false end); [ subst; constructor | ].
    destruct Hsize as (n & Hsize). now apply numeral_digits in Hsize. }
  rewrite (parse_unfold e t) by (auto; eapply parse_units_head; eauto). rewrite U.
  assert (V : forall n, validate (mk e t n u) <> TsErr SyntaxError).
  { intros n. unfold validate.
    repeat match goal with |- context [if ?b then _ else _] => destruct b; try discriminate end. }
  destruct t; try (subst size; apply V); destruct Hsize as (n & Hsize);
    apply numeral_digits in Hsize as (_ & Hne & _); (destruct size as [ | d ds ]; [ congruence | ]);
    (destruct (parse_u64 (d :: ds)); [ apply V | discriminate ]).
Qed.

Lemma parse_other_error s err : type_str_parse s = TsErr err ->
  match err with
  | SyntaxError => ~ well_spelled s
  | ParseIntError => exists mark code size unit n, s = lit mark ++ lit code ++ size ++ unit /\ numeral size n /\ 2 ^ 64 <= n
      /\ (exists e, In (mark, e) mark_table) /\ (exists c, In (code, c) code_table)
  | InvalidEndianness t | InvalidSize t | MissingOrUnexpectedUnits t => well_spelled s /\ ~ legal t
  end.
Proof.
  intros H. destruct err as [ | | t0 | t0 | t0 ].
  { intros W. now apply parse_syntax_error in W. }
  all: assert (HL : 2 <= lenN (utf8 s)) by (unfold type_str_parse in H; destruct (lenN (utf8 s) <? 2) eqn:L; [ discriminate | lia ]);
    assert (Hform : exists c0 c1 r e tc, s = c0 :: c1 :: r /\ endianness_from_char c0 = Some e /\ type_char_from_char c1 = Some tc) by
     (unfold type_str_parse in H; replace (lenN (utf8 s) <? 2) with false in H by lia;
      destruct s as [ | c0 [ | c1 r ] ]; try discriminate; destruct (endianness_from_char c0) eqn:E0; try discriminate;
      destruct (type_char_from_char c1) eqn:E1; try discriminate; do 5 eexists; eauto);
    destruct Hform as (c0 & c1 & r & e & tc & -> & E0 & E1);
    destruct (span is_digit r) as (digits, rem) eqn:Sp; apply span_spec in Sp as (-> & Hd & Hr);
    rewrite (parse_unfold e tc) in H by auto;
    apply mark_char in E0 as (m0 & Hin0 & Hl0); apply code_char in E1 as (m1 & Hin1 & Hl1).
  { exists m0, m1, digits, rem, (dec_value digits). rewrite Hl0, Hl1. split; [ reflexivity | ].
    assert (V : forall n u, validate (mk e tc n u) <> TsErr ParseIntError).
    { intros n u. unfold validate.
      repeat match goal with |- context [if ?b then _ else _] => destruct b; try discriminate end. }
    assert (digits <> [] /\ 2 ^ 64 <= dec_value digits).
    { destruct tc, digits as [ | d ds ]; try discriminate;
        try (destruct (parse_units rem); [ now apply V in H | discriminate ]);
        (split; [ discriminate | ]); unfold parse_u64 in H;
        destruct (dec_value (d :: ds) <? 2 ^ 64) eqn:B; try lia; (destruct (parse_units rem); [ now apply V in H | discriminate ]). }
    split; [ now apply numeral_intro | ]. split; [ tauto | split; eauto ]. }
  all: assert (exists n u, parse_units rem = Some u /\ n < 2 ^ 64 /\ (tc = TObject -> n = 0)
         /\ (if match tc with TObject => true | _ => false end then digits = [] else exists n, numeral digits n)
         /\ (validate (mk e tc n u) = TsErr (InvalidEndianness t0) \/ validate (mk e tc n u) = TsErr (InvalidSize t0)
             \/ validate (mk e tc n u) = TsErr (MissingOrUnexpectedUnits t0))) as (n & u & U & Hn & HO & Hdig & V) by
      (destruct tc, digits as [ | d ds ]; try discriminate;
       try (destruct (parse_u64 (d :: ds)) as [ n | ] eqn:PU; [ unfold parse_u64 in PU;
         destruct (dec_value (d :: ds) <? 2 ^ 64) eqn:B; [ | discriminate ]; injection PU as <- | discriminate ]);
       (destruct (parse_units rem) as [ u | ]; [ | discriminate ]);
       do 2 eexists; (split; [ reflexivity | split; [ | split; [ | split; [ | eauto ] ] ] ]);
       try discriminate; auto; try lia; eexists; apply numeral_intro; auto; discriminate).
  all: split; [ exists m0, m1, digits, rem, e, tc; rewrite Hl0, Hl1; split; [ reflexivity | split; auto; split; auto; split; auto ];
         apply parse_units_spec in U; destruct u; [ right | left; auto ]; destruct U as (? & ? & ?); eauto
       | intros Hlegal; assert (t0 = mk e tc n u) by
           (unfold validate in V; repeat match type of V with context [if ?b then _ else _] => destruct b end; intuition congruence);
         subst t0; assert (X : validate (mk e tc n u) = TsOk (mk e tc n u)) by (apply validate_spec; auto);
         rewrite X in V; intuition discriminate ].
Qed.

Lemma parse_same_display s1 s2 t1 t2 : type_str_parse s1 = TsOk t1 -> type_str_parse s2 = TsOk t2 ->
  (t1 = t2 <-> type_str_display t1 = type_str_display t2).
Proof.
  intros H1 H2. split; [ intros ->; auto | intros E ].
  apply parse_display_parse in H1, H2. rewrite E in H1. congruence.
Qed.
