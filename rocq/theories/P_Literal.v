(** Other parsers of Python literals: proofs. *)
From Verif Require Import M_Base M_Text M_TypeStr M_TypeErr M_PyLit M_IO M_Header M_Read M_Serialize M_DTypeErr M_NpyReader M_Write M_Literal.
From Verif Require Import S_Text S_TypeStr S_Python S_DType S_Shape S_Header S_Elem S_Dict S_Open S_Write S_File S_Literal.
From Verif Require Import P_Base P_Text P_IO P_Header P_Shape P_Parse P_Grammar P_Interp P_Open P_Reader P_WriteHeader P_Bytes T_Text.
Require Import ZifyBool ZifyNat ZifyN.
Open Scope N_scope.

(** * Interpretation: other kinds are treated as [None] *)
Fixpoint pyvalue_rect' (P : pyvalue -> Prop)
  (HS : forall s, P (LString s)) (HY : forall b, P (LBytes b)) (HI : forall z, P (LInteger z)) (HF : forall b, P (LFloat b)) (HC : forall a b, P (LComplex a b))
  (HT : forall l, Forall P l -> P (LTuple l)) (HL : forall l, Forall P l -> P (LList l))
  (HD : forall l, P (LDict l)) (HSet : forall l, P (LSet l)) (HB : forall b, P (LBool b)) (HN : P LNone) (v : pyvalue) : P v :=
  let rec := pyvalue_rect' P HS HY HI HF HC HT HL HD HSet HB HN in
  let go := fix go (l : list pyvalue) : Forall P l :=
      match l with [] => Forall_nil _ | x :: l' => Forall_cons x (rec x) (go l') end in
  match v with
  | LString s => HS s
  | LBytes b => HY b
  | LInteger z => HI z
  | LFloat b => HF b
  | LComplex a b => HC a b
  | LTuple l => HT l (go l)
  | LList l => HL l (go l)
  | LDict l => HD l
  | LSet l => HSet l
  | LBool b => HB b
  | LNone => HN
  end.
Definition lit_conv_field (e : pyvalue) : res (text * dtype) :=
  match e with
  | LList tup | LTuple tup =>
    match tup with
    | [n; d] =>
      match n with
      | LString name => let* ty := lit_from_descr d in Ok (name, ty)
      | _ => Err (EData (lit "list entry must contain a string for id"))
      end
    | [n; d; s] =>
      match n with
      | LString name =>
        let* ty := lit_from_descr d in
        let* shape := lit_shape s in
        Ok (name, wrap_arrays shape ty)
      | _ => Err (EData (lit "list entry must contain a string for id"))
      end
    | _ => Err (EData (lit "list entry must contain 2 or 3 items"))
    end
  | _ => Err (EData (lit "list must contain list or tuple"))
  end.
Lemma lit_from_descr_list l : lit_from_descr (LList l) = let* fs := mapM lit_conv_field l in Ok (DRecord fs).
Proof. cbn [lit_from_descr]. f_equal. induction l as [ | e l IH ]; [ reflexivity | ]. cbn [mapM]. rewrite <- IH. reflexivity. Qed.

Lemma mapM_map {A B C} (f : B -> res C) (g : A -> B) l : mapM f (map g l) = mapM (fun x => f (g x)) l.
Proof. induction l as [ | x l IH ]; [ reflexivity | ]. cbn [map mapM]. now rewrite IH. Qed.
Lemma mapM_same {A B} (f g : A -> res B) l : Forall (fun x => f x = g x) l -> mapM f l = mapM g l.
Proof. induction 1 as [ | x l H _ IH ]; [ reflexivity | ]. cbn [mapM]. now rewrite H, IH. Qed.

Lemma shape_integer_none v : lit_shape_integer v = convert_value_to_shape_integer (none_for_others v).
Proof. destruct v; reflexivity. Qed.
Lemma shape_none v : lit_shape v = convert_value_to_shape (none_for_others v).
Proof. destruct v; try reflexivity; cbn [lit_shape none_for_others convert_value_to_shape]; rewrite mapM_map; apply mapM_same, Forall_forall; intros x _; apply shape_integer_none. Qed.
Definition same_descr (v : pyvalue) : Prop := lit_from_descr v = from_descr (none_for_others v).
Definition same_part (v : pyvalue) : Prop := match v with LTuple l | LList l => Forall same_descr l | _ => True end.
Lemma conv_field_none v : same_part v -> lit_conv_field v = conv_field (none_for_others v).
Proof.
  assert (Main : forall l, Forall same_descr l -> lit_conv_field (LList l) = conv_field (VList (map none_for_others l))).
  { intros l Hl. cbn [lit_conv_field conv_field]. destruct l as [ | n [ | d [ | s [ | z l ] ] ] ]; try reflexivity.
    - inversion Hl as [ | ? ? _ Hl' ]; subst. inversion Hl' as [ | ? ? Hd _ ]; subst. cbn [map]. destruct n; cbn [none_for_others]; try reflexivity. now rewrite Hd.
    - inversion Hl as [ | ? ? _ Hl' ]; subst. inversion Hl' as [ | ? ? Hd _ ]; subst. cbn [map]. destruct n; cbn [none_for_others]; try reflexivity. now rewrite Hd, shape_none. }
  intros H. destruct v; try reflexivity; exact (Main _ H).
Qed.
Lemma descr_none_strong v : same_descr v /\ same_part v.
Proof.
  induction v as [ s | b | z | b | a b | l IH | l IH | l | l | b | ] using pyvalue_rect'; (split; [ | try exact I ]); try reflexivity.
  - cbn [same_part]. eapply Forall_impl; [ | exact IH ]. now intros ? (? & _).
  - unfold same_descr. rewrite lit_from_descr_list. cbn [none_for_others]. rewrite from_descr_list, mapM_map. f_equal. apply mapM_same.
    eapply Forall_impl; [ | exact IH ]. intros v (_ & H). now apply conv_field_none.
  - cbn [same_part]. eapply Forall_impl; [ | exact IH ]. now intros ? (? & _).
Qed.
Lemma descr_none v : lit_from_descr v = from_descr (none_for_others v).
Proof. apply descr_none_strong. Qed.
Lemma keys_none l : string_keys (map (fun p => (none_for_others (fst p), none_for_others (snd p))) l)
  = let* r := lit_string_keys l in Ok (map (fun p => (fst p, none_for_others (snd p))) r).
Proof.
  induction l as [ | (k, v) l IH ]; [ reflexivity | ]. cbn [map string_keys lit_string_keys fst snd]. destruct k; cbn [none_for_others]; try reflexivity.
  rewrite IH. destruct (lit_string_keys l); reflexivity.
Qed.
Lemma get_none key l : map_get key (map (fun p => (fst p, none_for_others (snd p))) l) = match lit_get key l with Some v => Some (none_for_others v) | None => None end.
Proof.
  induction l as [ | (k, v) l IH ]; [ reflexivity | ]. cbn [map map_get lit_get fst snd]. rewrite IH. destruct (lit_get key l); [ reflexivity | ]. destruct (eqb_list k key); reflexivity.
Qed.
Lemma expect_none key l : expect_key key (map (fun p => (fst p, none_for_others (snd p))) l) = let* v := lit_expect_key key l in Ok (none_for_others v).
Proof. unfold expect_key, lit_expect_key. rewrite get_none. destruct (lit_get key l); reflexivity. Qed.
Lemma interpret_none c v : lit_interpret c v = interpret_header c (none_for_others v).
Proof.
  destruct v as [ | | | | | | | l | | | ]; try reflexivity. cbn [lit_interpret none_for_others interpret_header]. rewrite keys_none.
  destruct (lit_string_keys l) as [ r | | ]; try reflexivity. cbn [bind]. rewrite !expect_none.
  destruct (lit_expect_key (lit "fortran_order") r) as [ fo | | ]; try reflexivity. cbn [bind].
  destruct fo; cbn [none_for_others bind]; try reflexivity.
  destruct (lit_expect_key (lit "shape") r) as [ sv | | ]; try reflexivity. cbn [bind]. rewrite shape_none.
  destruct (convert_value_to_shape (none_for_others sv)) as [ sh | | ]; try reflexivity. cbn [bind].
  destruct (lit_expect_key (lit "descr") r) as [ dv | | ]; try reflexivity. cbn [bind]. now rewrite descr_none.
Qed.
Lemma as_literal_none v : none_for_others (as_literal v) = v.
Proof.
  assert (E : forall l, Forall (fun v => none_for_others (as_literal v) = v) l -> map none_for_others (map as_literal l) = l)
    by (intros l H; rewrite map_map; induction H as [ | x l Hx _ IH ]; [ reflexivity | cbn [map]; now rewrite Hx, IH ]).
  induction v as [ s | z | l IH | l IH | l IH | l IH | b | ] using value_rect'; try reflexivity; cbn [as_literal none_for_others]; try (now rewrite E).
  f_equal. rewrite map_map. induction IH as [ | (k, v) l (Hk & Hv) _ IHl ]; [ reflexivity | ]. cbn [map fst snd] in *. now rewrite Hk, Hv, IHl.
Qed.

(** * What dictionaries say *)
Lemma none_string v s : none_for_others v = VString s <-> v = LString s.
Proof. destruct v; cbn [none_for_others]; split; try discriminate; congruence. Qed.
Lemma none_int v z : none_for_others v = VInteger z <-> v = LInteger z.
Proof. destruct v; cbn [none_for_others]; split; try discriminate; congruence. Qed.
Lemma none_bool v z : none_for_others v = VBool z <-> v = LBool z.
Proof. destruct v; cbn [none_for_others]; split; try discriminate; congruence. Qed.
Lemma none_seq v l : (none_for_others v = VList l \/ none_for_others v = VTuple l) <-> exists l', (v = LList l' \/ v = LTuple l') /\ map none_for_others l' = l.
Proof.
  split.
  - destruct v; cbn [none_for_others]; intros [ H | H ]; try discriminate; injection H as <-; eauto.
  - intros (l' & [ -> | -> ] & <-); cbn [none_for_others]; auto.
Qed.
Lemma shape_value_none v shape : lit_shape_value v shape <-> shape_value (none_for_others v) shape.
Proof.
  unfold lit_shape_value, shape_value. split.
  - intros (l & Hv & H). exists (map none_for_others l). split; [ apply none_seq; eauto | ]. clear Hv. induction H as [ | x n l shape (-> & Hx) _ IH ]; constructor; auto.
  - intros (l & Hv & H). apply none_seq in Hv as (l' & Hv & <-). exists l'. split; [ exact Hv | ]. clear Hv. revert shape H.
    induction l' as [ | x l' IH ]; intros shape H; inversion H as [ | ? n ? sh (Hx & Hn) Hr ]; subst; constructor; auto. split; [ now apply none_int | exact Hn ].
Qed.
Scheme lit_describes_ind' := Induction for lit_describes Sort Prop
  with lit_fields_ind' := Induction for lit_fields Sort Prop
  with lit_field_ind' := Induction for lit_field Sort Prop.
Combined Scheme lit_describes_mut from lit_describes_ind', lit_fields_ind', lit_field_ind'.
Lemma describes_to : (forall v d, lit_describes v d -> describes (none_for_others v) d)
  /\ (forall l fs, lit_fields l fs -> describes_fields (map none_for_others l) fs)
  /\ (forall v name d, lit_field v name d -> describes_field (none_for_others v) name d).
Proof.
  apply lit_describes_mut.
  - intros s t H. now constructor.
  - intros l fs _ H. now constructor.
  - constructor.
  - intros. cbn [map]. now constructor.
  - intros v name dv d Hv _ H. eapply field_pair; [ | exact H ]. destruct Hv as [ -> | -> ]; auto.
  - intros v name dv sv d shape Hv _ H Hs. eapply field_triple; [ | exact H | apply shape_value_none; exact Hs ]. destruct Hv as [ -> | -> ]; auto.
Qed.
Lemma describes_from : (forall w d, describes w d -> forall v, w = none_for_others v -> lit_describes v d)
  /\ (forall m fs, describes_fields m fs -> forall l, m = map none_for_others l -> lit_fields l fs)
  /\ (forall w name d, describes_field w name d -> forall v, w = none_for_others v -> lit_field v name d).
Proof.
  apply describes_mut.
  - intros s t H v E. symmetry in E. apply none_string in E as ->. now constructor.
  - intros l fs _ IH v E. destruct v as [ | | | | | | l' | | | | ]; try discriminate. cbn [none_for_others] in E. injection E as ->. constructor. now apply IH.
  - intros l E. destruct l; [ constructor | discriminate ].
  - intros v l name d fs _ IH1 _ IH2 m E. destruct m as [ | w m ]; [ discriminate | ]. cbn [map] in E. injection E as -> ->. constructor; auto.
  - intros v name dv d Hv _ IH w ->. assert (X : exists l, (w = LTuple l \/ w = LList l) /\ map none_for_others l = [VString name; dv]).
    { destruct w; destruct Hv as [ E | E ]; try discriminate; cbn [none_for_others] in E; injection E as E; eauto. }
    destruct X as (l & Hw & E). destruct l as [ | a [ | b [ | ] ] ]; try discriminate. cbn [map] in E. injection E as Ea Eb. apply none_string in Ea as ->.
    eapply lit_pair; [ exact Hw | apply IH; now symmetry ].
  - intros v name dv sv d shape Hv _ IH Hs w ->. assert (X : exists l, (w = LTuple l \/ w = LList l) /\ map none_for_others l = [VString name; dv; sv]).
    { destruct w; destruct Hv as [ E | E ]; try discriminate; cbn [none_for_others] in E; injection E as E; eauto. }
    destruct X as (l & Hw & E). destruct l as [ | a [ | b [ | s [ | ] ] ] ]; try discriminate. cbn [map] in E. injection E as Ea Eb Es. apply none_string in Ea as ->.
    subst sv. eapply lit_triple; [ exact Hw | apply IH; now symmetry | now apply shape_value_none ].
Qed.
Lemma describes_none v d : lit_describes v d <-> describes (none_for_others v) d.
Proof. split; [ apply describes_to | intros H; now apply (proj1 describes_from _ _ H) ]. Qed.
Definition both (p : pyvalue * pyvalue) : value * value := (none_for_others (fst p), none_for_others (snd p)).
Lemma keys_in key (l : list (pyvalue * pyvalue)) : In (LString key) (map fst l) <-> In (VString key) (map fst (map both l)).
Proof.
  rewrite map_map. induction l as [ | (k, v) l IH ]; [ reflexivity | ]. cbn [map In fst both]. rewrite IH, none_string. tauto.
Qed.
Lemma last_none key pairs v : lit_last key pairs v -> last_value key (map both pairs) (none_for_others v).
Proof. intros (l1 & l2 & -> & H). exists (map both l1), (map both l2). rewrite map_app. split; [ reflexivity | ]. now rewrite <- keys_in. Qed.
Lemma last_some key pairs w : last_value key (map both pairs) w -> exists v, lit_last key pairs v /\ none_for_others v = w.
Proof.
  intros (l1 & l2 & E & H). revert l1 E. induction pairs as [ | (k, v) pairs IH ]; intros l1 E; [ destruct l1; discriminate | ].
  destruct l1 as [ | p l1 ]; cbn [map app] in E.
  - unfold both in E at 1. cbn [fst snd] in E. injection E as Ek Ev E. apply none_string in Ek as ->. exists v. split; [ | exact Ev ]. exists [], pairs. split; [ reflexivity | ].
    now rewrite keys_in, E.
  - injection E as _ E. destruct (IH _ E) as (v' & (m1 & m2 & -> & Hm) & Hv'). exists v'. split; [ | exact Hv' ]. exists ((k, v) :: m1), m2. auto.
Qed.
Lemma says_none hv d shape o : lit_header_says hv d shape o <-> header_says (none_for_others hv) d shape o.
Proof.
  unfold lit_header_says, header_says. split.
  - intros (pairs & dv & sv & b & -> & Hk & H1 & H2 & H3 & H4 & H5 & ->). exists (map both pairs), (none_for_others dv), (none_for_others sv), b.
    split; [ reflexivity | ]. split. { apply Forall_map. eapply Forall_impl; [ | exact Hk ]. intros (k, v) (s & Hs). cbn [fst] in Hs. subst k. exists s. reflexivity. }
    split; [ now apply last_none | ]. split; [ now apply describes_none | ]. split; [ now apply last_none | ]. split; [ now apply shape_value_none | ].
    split; [ apply (last_none _ _ (LBool b)); exact H5 | reflexivity ].
  - intros (ps & dw & sw & b & E & Hk & H1 & H2 & H3 & H4 & H5 & ->). destruct hv as [ | | | | | | | pairs | | | ]; try discriminate. cbn [none_for_others] in E. injection E as <-.
    change (fun p => (none_for_others (fst p), none_for_others (snd p))) with both in *.
    apply last_some in H1 as (dv & H1 & <-). apply last_some in H3 as (sv & H3 & <-). apply last_some in H5 as (bv & H5 & Hb). apply none_bool in Hb as ->.
    exists pairs, dv, sv, b. split; [ reflexivity | ]. split. { rewrite Forall_map in Hk. eapply Forall_impl; [ | exact Hk ]. intros (k, v) (s & Hs). cbn [both fst] in *. exists s. now apply none_string. }
    split; [ exact H1 | ]. split; [ now apply describes_none | ]. split; [ exact H3 | ]. split; [ now apply shape_value_none | ]. auto.
Qed.

(** * The preamble, whatever is done with the text *)
Definition text_then {A} (k : bytes -> res A) : rprog A := let! ph := read_pre_header in let! txt := read_exact (snd ph) in rlift (k txt).
Lemma text_then_run {A} (k : bytes -> res A) pre txt rest : preamble_of pre txt -> run (text_then k) (pre ++ rest) = (k txt, rest).
Proof.
  intros (a & len & -> & Ha & Hlen & Hle).
  assert (exists props, get_version_props (a, 0) = Some props /\ (if vp_u32 props then 4 else 2) = lenN len) as (p & Hp & Hnl).
  { rewrite Hlen. destruct Ha as [ -> | [ -> | -> ] ]; eexists; split; reflexivity. }
  change (0x93 :: lit "NUMPY" ++ [a; 0] ++ len ++ txt) with ((magic ++ [a; 0]) ++ len ++ txt).
  unfold text_then, read_pre_header, read_magic_and_version. rewrite run_bind, run_bind.
  rewrite <- !app_assoc. set (R := len ++ txt ++ rest).
  cbn [run]. replace (8 <=? lenN (magic ++ [a; 0] ++ R)) with true by (rewrite app_assoc, lenN_app; change (lenN (magic ++ [a; 0])) with 8; lia).
  rewrite (app_assoc magic [a; 0] R), takeN_app, dropN_app by reflexivity.
  change (eqb_list (takeN 6 (magic ++ [a; 0])) magic) with true. cbn [run then_ nth magic lit app].
  rewrite Hp. rewrite run_bind, Hnl. unfold R. rewrite run_read_exact by reflexivity. cbn [then_ run snd].
  rewrite run_bind. rewrite run_read_exact by (rewrite <- little_endian_le; now rewrite Hle). cbn [then_]. now rewrite run_lift.
Qed.
Lemma text_then_cases {A B} (k : bytes -> res A) (j : bytes -> res B) input : (exists pre txt rest, input = pre ++ rest /\ preamble_of pre txt)
  \/ exists e rest, run (text_then k) input = (Err e, rest) /\ run (text_then j) input = (Err e, rest).
Proof.
  unfold text_then. rewrite (run_bind read_pre_header), (run_bind read_pre_header). pose proof (pre_header_run input) as H.
  destruct (run read_pre_header input) as ([ (p, n) | e | ], rest) eqn:E; [ | right; exists e, rest; split; reflexivity | tauto ]. cbn [then_ snd]. rewrite !run_bind. unfold read_exact. cbn [run].
  destruct (N.leb_spec n (lenN rest)) as [ L | L ]; [ left | right; cbn [then_]; do 2 eexists; split; reflexivity ].
  destruct H as (a & len & more & -> & Ha & Hlen & Hle).
  assert (rest = more) as ->.
  { assert (exists props, get_version_props (a, 0) = Some props /\ (if vp_u32 props then 4 else 2) = lenN len) as (q & Hp & Hnl).
    { rewrite Hlen. destruct Ha as [ -> | [ -> | -> ] ]; eexists; split; reflexivity. }
    revert E. change (0x93 :: lit "NUMPY" ++ [a; 0] ++ len ++ more) with (magic ++ [a; 0] ++ len ++ more).
    unfold read_pre_header, read_magic_and_version. rewrite run_bind. set (R := len ++ more).
    cbn [run]. replace (8 <=? lenN (magic ++ [a; 0] ++ R)) with true by (rewrite app_assoc, lenN_app; change (lenN (magic ++ [a; 0])) with 8; lia).
    rewrite (app_assoc magic [a; 0] R), takeN_app, dropN_app by reflexivity.
    change (eqb_list (takeN 6 (magic ++ [a; 0])) magic) with true. cbn [run then_ nth magic lit app].
    rewrite Hp. rewrite run_bind, Hnl. unfold R. rewrite run_read_exact by reflexivity. cbn [then_ run]. now intros [= _ _ ->]. }
  exists (0x93 :: lit "NUMPY" ++ [a; 0] ++ len ++ takeN n more), (takeN n more), (dropN n more). split.
  - change (0x93 :: lit "NUMPY" ++ [a; 0] ++ len ++ takeN n more) with ((0x93 :: lit "NUMPY" ++ [a; 0]) ++ len ++ takeN n more). rewrite <- !app_assoc, takeN_dropN. reflexivity.
  - exists a, len. split; [ reflexivity | ]. split; [ exact Ha | ]. split; [ exact Hlen | ]. rewrite lenN_takeN. lia.
Qed.

(** * The text *)
Lemma given_exact txt src : Forall (fun b => b < 256) txt -> from_utf8 (strip_newline txt) = Some src <-> given txt src.
Proof.
  intros Hb. unfold given. split.
  - intros E. assert (Hb' : Forall (fun b => b < 256) (strip_newline txt)) by now apply strip_newline_sub.
    apply utf8_exact in E as (Hs & E); auto. split; auto. rewrite E. destruct txt as [ | b p _ ] using rev_ind.
    + right. split; [ reflexivity | ]. intros s ->. change (strip_newline []) with (@nil N) in E. unfold utf8_string in E. rewrite flat_map_app in E.
      cbn [flat_map] in E. destruct (flat_map utf8_octets s); discriminate.
    + destruct (N.eq_dec b 10) as [ -> | H ]; [ rewrite strip_newline_end; now left | right ]. rewrite strip_newline_other in * by auto. split; [ reflexivity | ].
      intros s ->. unfold utf8_string in E. rewrite flat_map_app in E. change (flat_map utf8_octets [10]) with [10] in E. apply app_inj_tail in E as (_ & E). now apply H.
  - intros (Hs & Ht). assert (strip_newline txt = utf8_string src) as ->.
    { destruct Ht as [ -> | (-> & H) ]; [ apply strip_newline_end | ]. destruct src as [ | ch src _ ] using rev_ind; [ reflexivity | ].
      destruct (N.eq_dec ch 10) as [ -> | N ]; [ now destruct (H src) | ]. destruct (utf8_end (src ++ [ch])) as (p & b & -> & Hc); [ now exists src, ch | now apply strip_newline_other ]. }
    change utf8_string with utf8. now apply from_utf8_utf8.
Qed.
Lemma open_with_then p c : forall input, run (open_with p c) input = run (text_then (fun txt => let* v := parse_text_with p txt in lit_interpret c v)) input.
Proof.
  intros input. unfold open_with, read_header_with, text_then. rewrite !run_bind. destruct (run read_pre_header input) as ([ ph | e | ], r); cbn [then_]; try reflexivity.
  rewrite !run_bind. destruct (run (read_exact (snd ph)) r) as ([ txt | e | ], r'); cbn [then_]; try reflexivity. rewrite !run_lift.
  destruct (parse_text_with p txt); cbn [then_ bind]; try reflexivity. now rewrite run_lift.
Qed.
Lemma model_then c : forall input, run (read_and_interpret c) input = run (text_then (fun txt => let* v := parse_header_text txt in interpret_header c v)) input.
Proof.
  intros input. unfold read_and_interpret, read_header, text_then. rewrite !run_bind. destruct (run read_pre_header input) as ([ ph | e | ], r); cbn [then_]; try reflexivity.
  rewrite !run_bind. destruct (run (read_exact (snd ph)) r) as ([ txt | e | ], r'); cbn [then_]; try reflexivity. rewrite !run_lift.
  destruct (parse_header_text txt); cbn [then_ bind]; try reflexivity. now rewrite run_lift.
Qed.

(** * Opening *)
Lemma with_text p c pre txt rest src : Forall (fun b => b < 256) (pre ++ rest) -> preamble_of pre txt -> given txt src ->
  run (open_with p c) (pre ++ rest) = (match p src with
    | Parsed v => lit_interpret c v
    | Refused why => Err (EData (lit "could not parse Python expression: " ++ why))
    | Crashed => Panic
    end, rest).
Proof.
  intros Hb Hp Hg. rewrite open_with_then, (text_then_run _ pre txt rest Hp). f_equal. unfold parse_text_with.
  rewrite (proj2 (given_exact txt src (preamble_bytes _ _ _ Hb Hp)) Hg). destruct (p src); reflexivity.
Qed.
Lemma with_cases p c input : Forall (fun b => b < 256) input ->
  (exists e rest, run (open_with p c) input = (Err e, rest) /\ run (read_and_interpret c) input = (Err e, rest))
  \/ exists pre txt rest src, input = pre ++ rest /\ preamble_of pre txt /\ given txt src.
Proof.
  intros Hb. destruct (text_then_cases (fun txt => let* v := parse_text_with p txt in lit_interpret c v) (fun txt => let* v := parse_header_text txt in interpret_header c v) input) as [ (pre & txt & rest & -> & Hp) | H ].
  - destruct (from_utf8 (strip_newline txt)) as [ src | ] eqn:E.
    + right. exists pre, txt, rest, src. split; [ reflexivity | ]. split; [ exact Hp | ]. apply given_exact; [ | exact E ]. eapply preamble_bytes; eauto.
    + left. rewrite open_with_then, model_then, !(text_then_run _ pre txt rest Hp). unfold parse_text_with, parse_header_text. rewrite E. cbn [bind]. eauto.
  - left. rewrite open_with_then, model_then. exact H.
Qed.
Lemma with_opens p c input h rest : Forall (fun b => b < 256) input ->
  run (open_with p c) input = (Ok h, rest) <->
  exists pre txt src v d shape o, input = pre ++ rest /\ preamble_of pre txt /\ given txt src /\ p src = Parsed v /\ lit_header_says v d shape o
    /\ no_overflow_met c shape o /\ countable c d /\ numbers c d shape o h.
Proof.
  intros Hb. split.
  - intros E. destruct (with_cases p c input Hb) as [ (e & r & X & _) | (pre & txt & r & src & -> & Hp & Hg) ]; [ rewrite E in X; discriminate | ].
    rewrite (with_text p c pre txt r src Hb Hp Hg) in E. apply pair_inj in E as (E & ->). destruct (p src) as [ v | why | ] eqn:Ep; try discriminate.
    rewrite interpret_none in E. apply interpret_ok in E as (d & shape & o & Hs & Hf). apply says_none in Hs. apply from_parts_exact in Hf.
    exists pre, txt, src, v, d, shape, o. tauto.
  - intros (pre & txt & src & v & d & shape & o & -> & Hp & Hg & Ep & Hs & Hf). rewrite (with_text p c pre txt rest src Hb Hp Hg), Ep. f_equal.
    rewrite interpret_none. apply interpret_ok. exists d, shape, o. split; [ now apply says_none | now apply from_parts_exact ].
Qed.
Lemma with_panics p c input : Forall (fun b => b < 256) input ->
  fst (run (open_with p c) input) = Panic <->
  exists pre txt src rest, input = pre ++ rest /\ preamble_of pre txt /\ given txt src
    /\ (p src = Crashed \/ exists v d shape o, p src = Parsed v /\ lit_header_says v d shape o /\ overflow_panic c d shape o).
Proof.
  intros Hb. split.
  - intros E. destruct (with_cases p c input Hb) as [ (e & r & X & _) | (pre & txt & r & src & -> & Hp & Hg) ]; [ rewrite X in E; discriminate | ].
    rewrite (with_text p c pre txt r src Hb Hp Hg) in E. cbn [fst] in E. exists pre, txt, src, r. repeat (split; [ solve [ auto ] | ]).
    destruct (p src) as [ v | why | ] eqn:Ep; [ right | discriminate | now left ]. rewrite interpret_none in E. apply interpret_panic_parts in E as (d & shape & o & Hs & Hf).
    exists v, d, shape, o. split; [ reflexivity | ]. split; [ now apply says_none | now apply from_parts_panic_exact ].
  - intros (pre & txt & src & rest & -> & Hp & Hg & H). rewrite (with_text p c pre txt rest src Hb Hp Hg). cbn [fst]. destruct H as [ -> | (v & d & shape & o & -> & Hs & Hf) ]; [ reflexivity | ].
    rewrite interpret_none. rewrite (interpret_parts c _ d shape o); [ now apply from_parts_panic_exact | now apply says_none ].
Qed.
(** Where the text is a literal of the grammar, the parser makes no difference. *)
Lemma with_same p c input : understands p -> Forall (fun b => b < 256) input ->
  (forall pre txt rest src, input = pre ++ rest -> preamble_of pre txt -> given txt src -> exists v, python_literal src v) ->
  run (open_with p c) input = run (read_and_interpret c) input.
Proof.
  intros Hu Hb H. destruct (with_cases p c input Hb) as [ (e & r & X & Y) | (pre & txt & rest & src & -> & Hp & Hg) ]; [ congruence | ].
  destruct (H pre txt rest src eq_refl Hp Hg) as (v & Hv). rewrite (with_text p c pre txt rest src Hb Hp Hg), (Hu src v Hv). rewrite interpret_none, as_literal_none.
  rewrite model_then, (text_then_run _ pre txt rest Hp). f_equal. unfold parse_header_text. rewrite (proj2 (given_exact txt src (preamble_bytes _ _ _ Hb Hp)) Hg).
  rewrite (parse_complete src v Hv). reflexivity.
Qed.
Lemma preamble_one pre txt rest pre' txt' rest' : pre ++ rest = pre' ++ rest' -> preamble_of pre txt -> preamble_of pre' txt' -> pre = pre' /\ txt = txt' /\ rest = rest'.
Proof.
  intros E H H'. pose proof (text_then_run (fun b => Ok b) pre txt rest H) as X. pose proof (text_then_run (fun b => Ok b) pre' txt' rest' H') as Y. rewrite E, Y in X.
  injection X as <- <-. apply app_inv_tail in E. auto.
Qed.
Lemma given_one txt src src' : given txt src -> given txt src' -> src = src'.
Proof.
  intros (Hs & H) (Hs' & H'). assert (E : utf8_string src = utf8_string src').
  { assert (N : forall s t, Forall (fun ch => scalar_value ch = true) s -> (forall x, s <> x ++ [10]) -> utf8_string s <> utf8_string t ++ [10]).
    { intros s t Hx Hn E. destruct s as [ | ch s _ ] using rev_ind; [ destruct (utf8_string t); discriminate | ].
      destruct (N.eq_dec ch 10) as [ -> | Nc ]; [ now apply (Hn s) | ]. destruct (utf8_end (s ++ [ch])) as (p & b & Ep & Hc); [ now exists s, ch | ]. rewrite Ep in E. apply app_inj_tail in E as (_ & ->). now apply Hc. }
    destruct H as [ -> | (-> & H) ], H' as [ H' | (H' & H2) ].
    - now apply app_inj_tail in H'.
    - symmetry in H'. now apply N in H'.
    - now apply N in H'.
    - exact H'. }
  now apply utf8_string_inj.
Qed.
Lemma literal_given txt v : header_text txt v -> exists src, given txt src /\ python_literal src v.
Proof.
  intros (src & Hs & Ht & Hl). exists src. split; [ | exact Hl ]. split; [ exact Hs | ]. destruct Ht as [ -> | -> ]; [ right | now left ]. split; [ reflexivity | ].
  intros s ->. apply python_tail in Hl as (q & ch & E & Hc). apply app_inj_tail in E as (_ & <-). now apply Hc.
Qed.
Lemma with_whatever p c input h rest : understands p -> Forall (fun b => b < 256) input -> run (read_and_interpret c) input = (Ok h, rest) -> run (open_with p c) input = (Ok h, rest).
Proof.
  intros Hu Hb E. rewrite <- E. apply with_same; auto. intros pre txt r src -> Hp Hg.
  apply open_exact in E as (pre' & txt' & v & d & shape & o & Ei & Hp' & Ht & _); [ | exact Hb ]. destruct (preamble_one _ _ _ _ _ _ Ei Hp Hp') as (_ & <- & _).
  apply literal_given in Ht as (src' & Hg' & Hl). rewrite (given_one _ _ _ Hg Hg'). eauto.
Qed.
Lemma with_panic p c input : understands p -> Forall (fun b => b < 256) input -> fst (run (read_and_interpret c) input) = Panic -> fst (run (open_with p c) input) = Panic.
Proof.
  intros Hu Hb E. rewrite (with_same p c input Hu Hb); [ exact E | ]. intros pre txt r src -> Hp Hg.
  apply open_panic_exact in E as (pre' & txt' & v & d & shape & o & r' & Ei & Hp' & Ht & _); [ | exact Hb ]. destruct (preamble_one _ _ _ _ _ _ Ei Hp Hp') as (_ & <- & _).
  apply literal_given in Ht as (src' & Hg' & Hl). rewrite (given_one _ _ _ Hg Hg'). eauto.
Qed.
Lemma new_with p c src f src' : understands p -> bytes_ok (cur_data src) -> npy_new c src = (Ok f, src') -> npy_new_with p c src = (Ok f, src').
Proof.
  intros Hu Hb H. unfold npy_new, npy_new_with, run_cursor in *. destruct (run (read_and_interpret c) (cur_rest src)) as (r & rest) eqn:E. destruct r as [ h | e | ]; try discriminate.
  rewrite (with_whatever p c _ h rest Hu); [ exact H | | exact E ]. unfold cur_rest. now apply Forall_dropN.
Qed.
Lemma reads_with_any p c t data pos d o shape vs : understands p -> bytes_ok data -> reads_as c t data pos d o shape vs -> reads_with p c t data pos d o shape vs.
Proof. intros Hu Hb (f & src & H & H1 & H2 & H3 & H4). exists f, src. split; [ now apply new_with | ]. auto. Qed.
Lemma written_with p c c' t d o h vs s s' : understands p -> wf_dtype d -> Forall (has_type t) vs -> bytes_ok (sk_data s) -> write_file c t d o h (output_kind h) vs s = (Ok tt, s') ->
  forall shape ws, reads_as c' t (sk_data s') (sk_pos s) d o shape ws -> reads_with p c' t (sk_data s') (sk_pos s) d o shape ws.
Proof. intros Hu Hw Hv Hb H shape ws Hr. apply reads_with_any; auto. eapply written_bytes; eauto. Qed.

(** * [DType::parse] *)
Lemma dtype_with p src line : Forall (fun ch => scalar_value ch = true) src -> src = line ++ [10] \/ (src = line /\ forall s, src <> s ++ [10]) ->
  dtype_parse_with p src = match p line with
    | Parsed v => lit_from_descr v
    | Refused why => Err (EData (lit "could not parse Python expression: " ++ why))
    | Crashed => Panic
    end.
Proof.
  intros Hs Hl. unfold dtype_parse_with, parse_text_with. change utf8 with utf8_string. rewrite (proj2 (given_exact (utf8_string src) line (utf8_bytes src Hs))); [ destruct (p line); reflexivity | ].
  destruct Hl as [ -> | (-> & H) ]; [ | split; auto ]. apply Forall_app in Hs as (Hs & _). split; [ exact Hs | left ]. unfold utf8_string. now rewrite flat_map_app.
Qed.
Lemma dtype_with_ok v d : lit_from_descr v = Ok d <-> lit_describes v d.
Proof. rewrite descr_none, describes_none. apply descr_exact. Qed.
Lemma dtype_with_panic v : lit_from_descr v <> Panic.
Proof. rewrite descr_none. apply from_descr_no_panic. Qed.

(** * What is opened is sound *)
Fixpoint pyvalue_rect2 (P : pyvalue -> Prop)
  (HS : forall s, P (LString s)) (HY : forall b, P (LBytes b)) (HI : forall z, P (LInteger z)) (HF : forall b, P (LFloat b)) (HC : forall a b, P (LComplex a b))
  (HT : forall l, Forall P l -> P (LTuple l)) (HL : forall l, Forall P l -> P (LList l))
  (HD : forall l, Forall (fun p => P (fst p) /\ P (snd p)) l -> P (LDict l)) (HSet : forall l, Forall P l -> P (LSet l)) (HB : forall b, P (LBool b)) (HN : P LNone) (v : pyvalue) : P v :=
  let rec := pyvalue_rect2 P HS HY HI HF HC HT HL HD HSet HB HN in
  let go := fix go (l : list pyvalue) : Forall P l :=
      match l with [] => Forall_nil _ | x :: l' => Forall_cons x (rec x) (go l') end in
  match v with
  | LString s => HS s
  | LBytes b => HY b
  | LInteger z => HI z
  | LFloat b => HF b
  | LComplex a b => HC a b
  | LTuple l => HT l (go l)
  | LList l => HL l (go l)
  | LDict l =>
    HD l ((fix god (l : list (pyvalue * pyvalue)) : Forall (fun p => P (fst p) /\ P (snd p)) l :=
             match l with [] => Forall_nil _ | x :: l' => Forall_cons x (conj (rec (fst x)) (rec (snd x))) (god l') end) l)
  | LSet l => HSet l (go l)
  | LBool b => HB b
  | LNone => HN
  end.
Lemma texts_none v : strings_of (none_for_others v) = texts v.
Proof.
  assert (E : forall l, Forall (fun v => strings_of (none_for_others v) = texts v) l -> flat_map strings_of (map none_for_others l) = flat_map texts l)
    by (intros l H; induction H as [ | x l Hx _ IH ]; [ reflexivity | cbn [map flat_map]; now rewrite Hx, IH ]).
  induction v as [ s | b | z | b | a b | l IH | l IH | l IH | l IH | b | ] using pyvalue_rect2; try reflexivity; cbn [none_for_others strings_of texts]; try (now rewrite E).
  induction IH as [ | (k, v) l (Hk & Hv) _ IHl ]; [ reflexivity | ]. cbn [map flat_map fst snd] in *. now rewrite Hk, Hv, IHl.
Qed.
Lemma opened_with p c input h rest : rust_strings p -> Forall (fun b => b < 256) input -> run (open_with p c) input = (Ok h, rest) ->
  wf_dtype (h_dtype h) /\ top_level (h_dtype h) /\ Forall (fun n => n < 2 ^ 64) (h_shape h).
Proof.
  intros Hr Hb H. apply with_opens in H as (pre & txt & src & v & d & shape & o & -> & Hp & Hg & Ep & Hs & _ & _ & (-> & -> & _)); [ | exact Hb ].
  apply says_none in Hs. eapply header_says_wf; [ exact Hs | ]. intros s Hin. rewrite texts_none in Hin. specialize (Hr src v s Ep Hin). intros ch Hc. rewrite Forall_forall in Hr. now apply Hr.
Qed.

(** * Opening at a place in a stream *)
Lemma new_with_place p c src : let '(r, src') := npy_new_with p c src in let '(r', rest) := run (open_with p c) (dropN (cur_pos src) (cur_data src)) in
  cur_data src' = cur_data src /\ dropN (cur_pos src') (cur_data src') = rest /\ cur_pos src <= cur_pos src'
  /\ match r' with Ok h => r = Ok {| nf_header := h; nf_src := src' |} | Err e => r = Err e | Panic => r = Panic end.
Proof.
  unfold npy_new_with, run_cursor, cur_rest. destruct (run (open_with p c) (dropN (cur_pos src) (cur_data src))) as (r', rest) eqn:E. pose proof E as E'. apply run_suffix in E' as (used & Hu).
  set (src' := {| cur_data := cur_data src; cur_pos := _ |}). assert (G : cur_data src' = cur_data src /\ dropN (cur_pos src') (cur_data src') = rest /\ cur_pos src <= cur_pos src').
  { split; [ reflexivity | ]. cbn [cur_pos cur_data src']. split; [ | lia ].
    transitivity (dropN (lenN (dropN (cur_pos src) (cur_data src)) - lenN rest) (dropN (cur_pos src) (cur_data src))); [ rewrite dropN_dropN; f_equal; lia | ].
    rewrite Hu at 2. apply dropN_app. rewrite Hu, lenN_app. lia. }
  destruct G as (G1 & G2 & G3). destruct r'; auto.
Qed.
