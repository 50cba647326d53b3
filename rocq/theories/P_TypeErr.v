(** Messages of refused type strings. *)
From Verif Require Import M_Base M_Text M_TypeStr M_TypeErr S_Text S_TypeStr S_TypeErr P_Base P_Text T_Text P_TypeStr.
Open Scope N_scope.

Lemma digit_iff d : is_digit d = true <-> 48 <= d <= 57.
Proof. unfold is_digit. lia. Qed.
Lemma shown_display t : shown t (type_str_display t).
Proof.
  destruct t as [e c n u]. unfold type_str_display, shown. cbn [ts_endianness ts_char ts_size ts_units].
  assert (exists mark, In (mark, e) mark_table /\ lit mark = endianness_to_str e) as (mark & Hm & Em) by (destruct e; eexists; cbn; split; eauto).
  assert (exists code, In (code, c) code_table /\ code <> "a"%string /\ lit code = type_char_to_str c) as (code & Hc & Ha & Ec)
    by (exists (match c with TBool => "b" | TInt => "i" | TUint => "u" | TFloat => "f" | TComplex => "c" | TTimeDelta => "m" | TDateTime => "M"
          | TByteStr => "S" | TUnicodeStr => "U" | TObject => "O" | TRawData => "V" end)%string; destruct c; (split; [ cbn; tauto | (split; [ discriminate | reflexivity ]) ])).
  exists mark, code, (if ts_pickled {| ts_endianness := e; ts_char := c; ts_size := n; ts_units := u |} then [] else dec n),
    (match u with Some u => lit "[" ++ time_units_to_str u ++ lit "]" | None => [] end).
  rewrite Em, Ec. split; [ reflexivity | ]. do 3 (split; [ auto | ]).
  split; [ unfold ts_pickled; cbn [ts_char]; destruct c; first [ reflexivity | apply dec_shortest ] | ].
  destruct u as [ u | ]; [ | reflexivity ]. cbn [unit_text].
  exists (match u with Year => "Y" | Month => "M" | Week => "W" | Day => "D" | Hour => "h" | Minute => "m" | Second => "s" | Millisecond => "ms"
    | Microsecond => "us" | Nanosecond => "ns" | Picosecond => "ps" | Femtosecond => "fs" | Attosecond => "as" end)%string.
  destruct u; (split; [ cbn; tauto | reflexivity ]).
Qed.
Lemma shown_unique t w : shown t w -> w = type_str_display t.
Proof.
  intros (mark & code & size & unit & -> & Hm & Hc & Ha & Hs & Hu). unfold type_str_display.
  assert (lit mark = endianness_to_str (ts_endianness t)) as ->
    by (cbn in Hm; repeat (destruct Hm as [ [= <- <-] | Hm ]; [ reflexivity | ]); destruct Hm).
  assert (lit code = type_char_to_str (ts_char t)) as ->
    by (cbn in Hc; repeat (destruct Hc as [ [= <- <-] | Hc ]; [ (reflexivity || now destruct Ha) | ]); destruct Hc).
  f_equal. f_equal. f_equal.
  - unfold ts_pickled. destruct (ts_char t); first [ exact Hs | now apply shortest_unique ].
  - destruct (ts_units t) as [ u | ]; [ | exact Hu ]. destruct Hu as (name & Hn & ->). do 2 f_equal.
    cbn in Hn; repeat (destruct Hn as [ [= <- <-] | Hn ]; [ reflexivity | ]); destruct Hn.
Qed.
Lemma begins_inv s e c size rest : begins s e c size rest -> exists c0 c1, s = c0 :: c1 :: size ++ rest
  /\ endianness_from_char c0 = Some e /\ type_char_from_char c1 = Some c /\ (c = TObject <-> size = [])
  /\ Forall (fun d => is_digit d = true) size /\ match rest with [] => True | d :: _ => is_digit d = false end.
Proof.
  intros (mark & code & -> & Hm & Hc & HO & Hd & Hr). destruct (mark_table_one _ _ Hm) as (c0 & E0), (code_table_one _ _ Hc) as (c1 & E1).
  exists c0, c1. rewrite E0, E1. split; [ reflexivity | ].
  split; [ apply mark_char; eauto | split; [ apply code_char; eauto | split; [ exact HO | split ] ] ].
  - apply Forall_forall. intros d Hin. apply digit_iff. auto.
  - destruct rest as [ | d r ]; [ exact I | ]. specialize (Hr d r eq_refl). destruct (is_digit d) eqn:E; [ | reflexivity ]. apply digit_iff in E. tauto.
Qed.
Lemma begins_intro e c c0 c1 size rest : endianness_from_char c0 = Some e -> type_char_from_char c1 = Some c -> (c = TObject <-> size = []) ->
  Forall (fun d => is_digit d = true) size -> match rest with [] => True | d :: _ => is_digit d = false end -> begins (c0 :: c1 :: size ++ rest) e c size rest.
Proof.
  intros E0 E1 HO Hd Hr. apply mark_char in E0 as (m & Hm & Em). apply code_char in E1 as (k & Hk & Ek). exists m, k. rewrite Em, Ek.
  split; [ reflexivity | ]. do 3 (split; [ auto | ]). split.
  - intros d Hin. apply digit_iff. rewrite Forall_forall in Hd. auto.
  - intros d r ->. rewrite <- digit_iff. congruence.
Qed.
(** The parser on something that begins like a type string. *)
Lemma parse_begins s e c size rest : begins s e c size rest -> type_str_parse s =
  if positional size <? 2 ^ 64 then match parse_units rest with None => TsErr SyntaxError | Some u => validate (mk e c (positional size) u) end
  else TsErr ParseIntError.
Proof.
  intros H. apply begins_inv in H as (c0 & c1 & -> & E0 & E1 & HO & Hd & Hr). rewrite (parse_unfold e c) by auto.
  destruct size as [ | d ds ].
  - destruct HO as (_ & HO). rewrite (HO eq_refl). reflexivity.
  - assert (c <> TObject) by (intros X; apply HO in X; discriminate). unfold parse_u64. rewrite positional_value.
    destruct c; try congruence; destruct (positional (d :: ds) <? 2 ^ 64); reflexivity.
Qed.
Lemma parse_begins_not s : (forall e c size rest, ~ begins s e c size rest) -> type_str_parse s = TsErr SyntaxError.
Proof.
  intros H. unfold type_str_parse. destruct (lenN (utf8 s) <? 2) eqn:L; [ reflexivity | ].
  pose proof (parse_no_panic s) as NP. unfold type_str_parse in NP. rewrite L in NP.
  destruct s as [ | c0 r0 ]; [ congruence | ]. destruct (endianness_from_char c0) as [ e | ] eqn:E0; [ | reflexivity ].
  destruct r0 as [ | c1 r1 ]; [ congruence | ]. destruct (type_char_from_char c1) as [ c | ] eqn:E1; [ | reflexivity ].
  destruct (span is_digit r1) as (digits, rem) eqn:Sp. apply span_spec in Sp as (-> & Hd & Hr).
  assert (~ (c = TObject <-> digits = [])) as HO.
  { intros HO. apply (H e c digits rem). apply begins_intro; auto. }
  destruct c, digits; try reflexivity; exfalso; apply HO; split; intros; congruence.
Qed.
Lemma begins_dec s : (forall e c size rest, ~ begins s e c size rest) \/ exists e c size rest, begins s e c size rest.
Proof.
  destruct s as [ | c0 [ | c1 r1 ] ]; try (left; intros ? ? ? ? H; apply begins_inv in H as (? & ? & X & _); discriminate X).
  destruct (endianness_from_char c0) as [ e | ] eqn:E0; [ | left; intros ? ? ? ? H; apply begins_inv in H as (? & ? & [= <- <- _] & X & _); congruence ].
  destruct (type_char_from_char c1) as [ c | ] eqn:E1; [ | left; intros ? ? ? ? H; apply begins_inv in H as (? & ? & [= <- <- _] & _ & X & _); congruence ].
  destruct (span is_digit r1) as (digits, rem) eqn:Sp. pose proof Sp as Sp'. apply span_spec in Sp as (Er & Hd & Hr).
  assert ((c = TObject <-> digits = []) \/ ~ (c = TObject <-> digits = [])) as [ HO | HO ].
  { destruct c, digits; first [ left; split; intros; congruence | right; intros (X & Y); (discriminate (X eq_refl) || discriminate (Y eq_refl)) ]. }
  - right. exists e, c, digits, rem. rewrite Er. now apply begins_intro.
  - left. intros e' c' size rest H. apply begins_inv in H as (? & ? & [= <- <- E] & X0 & X1 & HO' & Hd' & Hr').
    rewrite E, span_digits_app in Sp' by auto. injection Sp' as <- <-. assert (c' = c) by congruence. subst c'. auto.
Qed.
Lemma has_form_parse s t : has_form s t -> type_str_parse s = validate t.
Proof.
  intros (size & rest & H & Hp & Hlt & Hu). rewrite (parse_begins _ _ _ _ _ H), Hp. replace (ts_size t <? 2 ^ 64) with true by lia.
  assert (parse_units rest = Some (ts_units t)) as -> by (apply parse_units_spec; destruct (ts_units t); exact Hu). now destruct t.
Qed.
Lemma begins_object s e c size rest : begins s e c size rest -> c = TObject -> size = [].
Proof. intros (? & ? & _ & _ & _ & HO & _) H. now apply HO. Qed.
Lemma lacks_order_iff t : lacks_order t <-> requires_endianness (ts_char t) (ts_size t) && match ts_endianness t with Irrelevant => true | _ => false end = true.
Proof.
  unfold lacks_order. destruct t as [e c n u]; cbn [ts_char ts_size ts_units ts_endianness].
  destruct e; rewrite ?andb_false_r, ?andb_true_r; destruct c; cbn [requires_endianness]; rewrite ?negb_true_iff, ?N.eqb_neq; intuition congruence.
Qed.
Lemma wrong_size_iff t : (exists sizes, wrong_size t sizes) <-> match valid_sizes (ts_char t) with Some l => negb (existsb (N.eqb (ts_size t)) l) | None => false end = true.
Proof.
  assert (X : forall n l, negb (existsb (N.eqb n) l) = true <-> ~ In n l).
  { intros n l. rewrite negb_true_iff. split.
    - intros E Hin. assert (existsb (N.eqb n) l = true) by (apply existsb_exists; exists n; split; [ auto | apply N.eqb_refl ]). congruence.
    - intros H. destruct (existsb (N.eqb n) l) eqn:E; [ | reflexivity ]. apply existsb_exists in E as (m & Hin & E). apply N.eqb_eq in E as ->. tauto. }
  split.
  - intros (sizes & l & Hin & Hn). assert (valid_sizes (ts_char t) = Some l) as ->.
    { destruct t as [e c n u]; cbn [ts_char ts_size] in *. cbn in Hin. repeat (destruct Hin as [ [= <- <- _] | Hin ]; [ reflexivity | ]). destruct Hin. }
    now apply X.
  - destruct t as [e c n u]; cbn [ts_char ts_size].
    destruct c; cbn [valid_sizes]; rewrite ?X; intros H; try discriminate H; do 2 eexists; (split; [ | exact H ]); cbn; eauto 12.
Qed.
Lemma wrong_size_text t sizes : wrong_size t sizes -> exists l, valid_sizes (ts_char t) = Some l /\ debug_slice l = lit sizes.
Proof.
  intros (l & Hin & _). exists l. destruct t as [e c n u]; cbn [ts_char] in *.
  cbn in Hin. repeat (destruct Hin as [ [= <- <- <-] | Hin ]; [ split; reflexivity | ]). destruct Hin.
Qed.
Lemma timed_iff c : timed c <-> has_units c = true.
Proof. unfold timed. destruct c; cbn; intuition congruence. Qed.
Lemma not_true_false (b : bool) (P : Prop) : (P <-> b = true) -> ~ P -> b = false.
Proof. intros H N. destruct b; [ | reflexivity ]. exfalso. apply N, H. reflexivity. Qed.

Lemma complaint_exact s msg : complaint s msg <-> exists err, type_str_parse s = TsErr err /\ parse_error_display err = Ok msg.
Proof.
  split.
  - intros H. destruct H as [ H | e c size rest H Hl | e c size rest H Hl Hu | t w H Hw Hm | t w sizes H Hw Hm Hz | t w H Hw Hm Hz Ht Hu | t w H Hw Hm Hz Ht Hu ].
    + exists SyntaxError. split; [ now apply parse_begins_not | reflexivity ].
    + exists ParseIntError. split; [ | reflexivity ]. rewrite (parse_begins _ _ _ _ _ H). now replace (positional size <? 2 ^ 64) with false by lia.
    + exists SyntaxError. split; [ | reflexivity ]. rewrite (parse_begins _ _ _ _ _ H). replace (positional size <? 2 ^ 64) with true by lia.
      destruct (parse_units rest) as [ u | ] eqn:E; [ | reflexivity ]. apply parse_units_spec in E. destruct (Hu u). destruct u; exact E.
    + exists (InvalidEndianness t). rewrite (has_form_parse _ _ H). apply shown_unique in Hw as ->. split; [ | reflexivity ].
      unfold validate. apply lacks_order_iff in Hm as ->. reflexivity.
    + exists (InvalidSize t). rewrite (has_form_parse _ _ H). apply shown_unique in Hw as ->. destruct (wrong_size_text _ _ Hz) as (l & El & Hd). split.
      * unfold validate. rewrite (not_true_false _ _ (lacks_order_iff t) Hm), (proj1 (wrong_size_iff t)); [ reflexivity | now exists sizes ].
      * cbn [parse_error_display]. rewrite El, Hd. reflexivity.
    + exists (MissingOrUnexpectedUnits t). rewrite (has_form_parse _ _ H). apply shown_unique in Hw as ->. apply timed_iff in Ht. split.
      * unfold validate. rewrite (not_true_false _ _ (lacks_order_iff t) Hm), (not_true_false _ _ (wrong_size_iff t)) by (now intros (z & Z); apply (Hz z)).
        rewrite Ht, Hu. reflexivity.
      * cbn [parse_error_display]. now rewrite Ht.
    + exists (MissingOrUnexpectedUnits t). rewrite (has_form_parse _ _ H). apply shown_unique in Hw as ->.
      assert (has_units (ts_char t) = false) as Ht' by (apply (not_true_false _ _ (timed_iff _) Ht)). split.
      * unfold validate. rewrite (not_true_false _ _ (lacks_order_iff t) Hm), (not_true_false _ _ (wrong_size_iff t)) by (now intros (z & Z); apply (Hz z)).
        rewrite Ht'. destruct (ts_units t); [ reflexivity | congruence ].
      * cbn [parse_error_display]. now rewrite Ht'.
  - intros (err & H & Hd). destruct (begins_dec s) as [ B | (e & c & size & rest & B) ].
    { rewrite parse_begins_not in H by auto. injection H as <-. apply Ok_inj in Hd as <-. now apply no_form. }
    rewrite (parse_begins _ _ _ _ _ B) in H. destruct (N.ltb_spec (positional size) (2 ^ 64)) as [ L | L ].
    2:{ injection H as <-. apply Ok_inj in Hd as <-. now apply (too_large s e c size rest). }
    destruct (parse_units rest) as [ u | ] eqn:E.
    2:{ injection H as <-. apply Ok_inj in Hd as <-. apply (no_unit s e c size rest); auto. intros u Hu.
        assert (parse_units rest = Some u) by (apply parse_units_spec; destruct u; exact Hu). congruence. }
    apply parse_units_spec in E. set (t := mk e c (positional size) u) in *.
    assert (R : has_form s t).
    { exists size, rest. split; [ exact B | split; [ reflexivity | split; [ exact L | ] ] ]. unfold t, mk. cbn [ts_units]. destruct u; exact E. }
    clearbody t. clear E B L. pose proof (shown_display t) as W. unfold validate in H.
    destruct (requires_endianness _ _ && _) eqn:V1.
    { injection H as <-. apply Ok_inj in Hd as <-. apply (no_order s t); auto. now apply lacks_order_iff. }
    assert (~ lacks_order t) as L by (intros X; apply lacks_order_iff in X; congruence).
    destruct (match valid_sizes (ts_char t) with Some _ => _ | None => _ end) eqn:V2.
    { injection H as <-. cbn [parse_error_display] in Hd. apply wrong_size_iff in V2 as (sizes & Z).
      destruct (wrong_size_text _ _ Z) as (l & El & Hs). rewrite El, Hs in Hd. apply Ok_inj in Hd as <-.
      exact (no_size s t _ sizes R W L Z). }
    assert (forall sizes, ~ wrong_size t sizes) as Z.
    { intros z X. assert (Y : exists z, wrong_size t z) by eauto. apply wrong_size_iff in Y. congruence. }
    destruct (has_units (ts_char t)) eqn:T, (ts_units t) eqn:U; cbn [xorb] in H; try discriminate H; injection H as <-; cbn [parse_error_display] in Hd; rewrite T in Hd; apply Ok_inj in Hd as <-.
    + apply (units_missing s t); auto. now apply timed_iff.
    + apply (units_unexpected s t); auto; [ | congruence ]. intros X. apply timed_iff in X. congruence.
Qed.
Lemma display_total s err : type_str_parse s = TsErr err -> exists msg, parse_error_display err = Ok msg.
Proof.
  intros H. destruct err as [ | | t | t | t ]; try (eexists; reflexivity).
  - assert (exists l, valid_sizes (ts_char t) = Some l) as (l & E).
    2:{ cbn [parse_error_display]. rewrite E. eexists. reflexivity. }
    destruct (begins_dec s) as [ B | (e & c & size & rest & B) ].
    { rewrite parse_begins_not in H by auto. discriminate. }
    rewrite (parse_begins _ _ _ _ _ B) in H. destruct (_ <? _); [ | discriminate ]. destruct (parse_units rest) as [ u | ]; [ | discriminate ].
    unfold validate in H. destruct (_ && _); [ discriminate | ].
    destruct (valid_sizes (ts_char (mk _ _ _ _))) as [ l | ] eqn:V.
    + destruct (negb _); [ injection H as <-; eauto | destruct (xorb _ _); discriminate ].
    + destruct (xorb _ _); discriminate.
  - cbn [parse_error_display]. destruct (has_units _); eexists; reflexivity.
Qed.
Lemma one_message s : (exists t, spells s t) \/ exists msg, complaint s msg /\ forall msg', complaint s msg' -> msg' = msg.
Proof.
  destruct (type_str_parse s) as [ t | err | ] eqn:E.
  - left. exists t. now apply parse_exact.
  - right. destruct (display_total _ _ E) as (msg & Hm). exists msg. split; [ apply complaint_exact; eauto | ].
    intros msg' H. apply complaint_exact in H as (err' & E' & Hm'). rewrite E in E'. injection E' as <-. rewrite Hm in Hm'. now apply Ok_inj in Hm' as <-.
  - now apply parse_no_panic in E.
Qed.
