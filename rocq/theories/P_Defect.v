(** First defects. *)
From Verif Require Import M_Base M_Text M_TypeStr M_TypeErr M_PyLit M_IO M_Header M_Read S_Text S_TypeStr S_TypeErr S_Python S_DType S_Shape S_Header S_Elem S_Dict S_Open S_Defect
  P_Base P_Text P_TypeStr P_TypeErr P_IO P_Header P_PyLit P_Parse P_Shape P_Number P_WriteHeader P_Elem P_Sizes P_Interp P_Grammar P_Open T_Text.
Open Scope N_scope.

Lemma bind_err {A B} (m : res A) (k : A -> res B) e : bind m k = Err e <-> m = Err e \/ exists a, m = Ok a /\ k a = Err e.
Proof.
  destruct m as [ a | e' | ]; cbn [bind]; (split; [ intros H | intros [ H | (x & E & H) ] ]); try discriminate; auto.
  - right. exists a. auto.
  - injection E as <-. exact H.
  - injection H as ->. now left.
  - injection H as ->. reflexivity.
Qed.
Lemma mapM_err {A B} (f : A -> res B) l e : mapM f l = Err e <-> exists before x after ys, l = before ++ x :: after /\ mapM f before = Ok ys /\ f x = Err e.
Proof.
  induction l as [ | a l IH ]; cbn [mapM].
  - split; [ discriminate | ]. intros ([ | ] & ? & ? & ? & [=] & _).
  - split.
    + intros H. apply bind_err in H as [ H | (b & Hb & H) ]; [ exists [], a, l, []; auto | ].
      apply bind_err in H as [ H | (? & _ & H) ]; [ | discriminate ]. apply IH in H as (before & x & after & ys & -> & H1 & H2).
      exists (a :: before), x, after, (b :: ys). split; auto. split; auto. cbn [mapM]. rewrite Hb. cbn [bind]. now rewrite H1.
    + intros (before & x & after & ys & E & H1 & H2). destruct before as [ | a' before ]; cbn [app] in E; injection E as -> ->; [ now rewrite H2 | ].
      cbn [mapM] in H1. apply bind_ok in H1 as (b & Hb & H1). apply bind_ok in H1 as (zs & Hz & H1). rewrite Hb. cbn [bind].
      rewrite (proj2 IH) by eauto 8. reflexivity.
Qed.

Lemma axis_exact x e : convert_value_to_shape_integer x = Err e <-> exists msg, e = EData msg /\ axis_defect x msg.
Proof.
  split.
  - intros H. destruct x; cbn [convert_value_to_shape_integer] in H; try (injection H as <-; eexists; split; [ reflexivity | constructor; discriminate ]).
    destruct (Z.ltb_spec z 0); [ injection H as <-; eexists; split; [ reflexivity | now constructor ] | ].
    destruct (Z.ltb_spec z (2 ^ 64)); [ discriminate | ]. injection H as <-. eexists; split; [ reflexivity | now constructor ].
  - intros (msg & -> & [ y H | z H | z H ]).
    + destruct y; try reflexivity. now destruct (H z).
    + cbn. now replace (z <? 0)%Z with true by lia.
    + cbn [convert_value_to_shape_integer]. replace (z <? 0)%Z with false by lia. now replace (z <? 2 ^ 64)%Z with false by lia.
Qed.
Lemma before_exact before ns : mapM convert_value_to_shape_integer before = Ok ns <-> shape_value (VList before) ns.
Proof. rewrite <- shape_ok. reflexivity. Qed.
Lemma shape_defect_exact v e : convert_value_to_shape v = Err e <-> exists msg, e = EData msg /\ shape_defect v msg.
Proof.
  assert (L : forall l, items_of v l -> convert_value_to_shape v = Err e -> exists msg, e = EData msg /\ shape_defect v msg).
  { intros l Hv H. assert (mapM convert_value_to_shape_integer l = Err e) as Hm by (destruct Hv as [ -> | -> ]; exact H).
    apply mapM_err in Hm as (before & x & after & ys & -> & H1 & H2). apply axis_exact in H2 as (msg & -> & H2). exists msg. split; auto.
    apply (shape_axis v before x after ys); auto. now apply before_exact. }
  split.
  - intros H. destruct v as [ | | l | l | | | | ]; try (injection H as <-; eexists; split; [ reflexivity | ]; constructor; intros ? [ [=] | [=] ]).
    + apply (L l); auto. now right.
    + apply (L l); auto. now left.
  - intros (msg & -> & [ w H | w before x after ns m H1 H2 H3 ]).
    + destruct w as [ | | l | l | | | | ]; try reflexivity; destruct (H l); [ now right | now left ].
    + apply before_exact in H2. destruct (axis_exact x (EData m)) as (_ & Hx).
      assert (mapM convert_value_to_shape_integer (before ++ x :: after) = Err (EData m)) by (apply mapM_err; exists before, x, after, ns; eauto 6).
      destruct H1 as [ -> | -> ]; assumption.
Qed.

Lemma convert_string_err s e : convert_string_to_type_str s = Err e <-> exists msg, e = EData (lit "invalid type string: " ++ msg) /\ complaint s msg.
Proof.
  unfold convert_string_to_type_str. pose proof (parse_no_panic s) as Hn. split.
  - destruct (type_str_parse s) as [ t | err | ] eqn:E; try discriminate. destruct (display_total _ _ E) as (m & Hm). rewrite Hm. cbn [bind].
    intros [= <-]. exists m. split; auto. apply complaint_exact. eauto.
  - intros (m & -> & H). apply complaint_exact in H as (err & -> & ->). reflexivity.
Qed.
Lemma fields_exact l fs : mapM conv_field l = Ok fs <-> describes_fields l fs.
Proof.
  split; [ | apply descr_sound ]. intros H. assert (E : from_descr (VList l) = Ok (DRecord fs)) by (rewrite from_descr_list, H; reflexivity).
  apply descr_exact in E. now inversion E.
Qed.

(** Small fields and what they say. *)
Definition pair_conv (tup : list value) : res (text * dtype) :=
  match tup with
  | [n; d] => match n with VString name => let* ty := from_descr d in Ok (name, ty) | _ => Err (EData (lit "list entry must contain a string for id")) end
  | [n; d; s] => match n with VString name => let* ty := from_descr d in let* shape := convert_value_to_shape s in Ok (name, wrap_arrays shape ty)
                 | _ => Err (EData (lit "list entry must contain a string for id")) end
  | _ => Err (EData (lit "list entry must contain 2 or 3 items"))
  end.
Lemma conv_field_items x l : items_of x l -> conv_field x = pair_conv l.
Proof. intros [ -> | -> ]; reflexivity. Qed.
Lemma conv_field_other x : (forall l, ~ items_of x l) -> conv_field x = Err (EData (lit "list must contain list or tuple")).
Proof. intros H. destruct x as [ | | l | l | | | | ]; try reflexivity; destruct (H l); [ now right | now left ]. Qed.
Lemma items_cases x : (forall l, ~ items_of x l) \/ exists l, items_of x l.
Proof. destruct x as [ | | l | l | | | | ]; try (left; intros ? [ H | H ]; discriminate H); right; exists l; [ now right | now left ]. Qed.

Scheme type_defect_ind' := Induction for type_defect Sort Prop with field_defect_ind' := Induction for field_defect Sort Prop.
Combined Scheme type_defect_mut from type_defect_ind', field_defect_ind'.
Lemma defect_reported :
  (forall v msg, type_defect v msg -> from_descr v = Err (EData msg)) /\ (forall x msg, field_defect x msg -> conv_field x = Err (EData msg)).
Proof.
  apply type_defect_mut.
  - intros v H1 H2. destruct v as [ s | | | l | | | | ]; try reflexivity; [ now destruct (H1 s) | now destruct (H2 l) ].
  - intros s msg H. cbn [from_descr]. rewrite (proj2 (convert_string_err s _)) by eauto. reflexivity.
  - intros before x after fs msg Hb _ IH. rewrite from_descr_list. apply fields_exact in Hb.
    rewrite (proj2 (mapM_err conv_field (before ++ x :: after) (EData msg))) by eauto 8. reflexivity.
  - intros x H. now apply conv_field_other.
  - intros x l H H2 H3. rewrite (conv_field_items x l H). destruct l as [ | a [ | b [ | d [ | ? ? ] ] ] ]; try reflexivity; [ now destruct H2 | now destruct H3 ].
  - intros x name dv more H Hm Hn. rewrite (conv_field_items x _ H). destruct more as [ | sv [ | ? ? ] ]; [ | | rewrite !lenN_cons in Hm; lia ].
    all: destruct name as [ s | | | | | | | ]; try reflexivity; now destruct (Hn s).
  - intros x name dv more msg H Hm _ IH. rewrite (conv_field_items x _ H). destruct more as [ | sv [ | ? ? ] ]; [ | | rewrite !lenN_cons in Hm; lia ].
    all: cbn [pair_conv]; rewrite IH; reflexivity.
  - intros x name dv sv d msg H Hd Hs. rewrite (conv_field_items x _ H). cbn [pair_conv]. apply descr_exact in Hd. rewrite Hd. cbn [bind].
    rewrite (proj2 (shape_defect_exact sv (EData msg))) by eauto. reflexivity.
Qed.

Definition reported_at (v : value) : Prop := forall e, from_descr v = Err e -> exists msg, e = EData msg /\ type_defect v msg.
Definition parts_reported (v : value) : Prop := match v with VTuple l | VList l => Forall reported_at l | _ => True end.
Lemma field_reported x e : parts_reported x -> conv_field x = Err e -> exists msg, e = EData msg /\ field_defect x msg.
Proof.
  intros Hx H. destruct (items_cases x) as [ Hn | (l & Hl) ].
  - rewrite conv_field_other in H by auto. injection H as <-. eexists; split; [ reflexivity | now constructor ].
  - rewrite (conv_field_items x l Hl) in H. assert (Hr : Forall reported_at l) by (destruct Hl as [ -> | -> ]; exact Hx).
    assert (Hcount : lenN l <> 2 -> lenN l <> 3 -> pair_conv l = Err (EData (lit "list entry must contain 2 or 3 items"))).
    { intros. destruct l as [ | a [ | b [ | d [ | ? ? ] ] ] ]; try reflexivity; [ now destruct H0 | now destruct H1 ]. }
    destruct (N.eq_dec (lenN l) 2) as [ E2 | E2 ]; [ | destruct (N.eq_dec (lenN l) 3) as [ E3 | E3 ] ].
    3:{ rewrite Hcount in H by auto. injection H as <-. eexists; split; [ reflexivity | eapply field_items; eauto ]. }
    1: destruct l as [ | n [ | dv [ | ? l ] ] ]; unfold lenN in E2; cbn [List.length] in E2; try (exfalso; lia).
    2: destruct l as [ | n [ | dv [ | sv [ | ? l ] ] ] ]; unfold lenN in E3; cbn [List.length] in E3; try (exfalso; lia).
    all: apply Forall_cons_iff in Hr as (_ & Hr); apply Forall_cons_iff in Hr as (Hd & _).
    all: destruct n as [ s | | | | | | | ]; try (injection H as <-; eexists; split; [ reflexivity | eapply field_name; [ exact Hl | cbn; lia | discriminate ] ]).
    all: cbn [pair_conv] in H; apply bind_err in H as [ H | (ty & Hty & H) ].
    1, 3: apply Hd in H as (msg & -> & H); exists msg; split; auto; (eapply field_type; [ exact Hl | cbn; lia | exact H ]).
    1: discriminate.
    apply bind_err in H as [ H | (? & _ & [=]) ]. apply shape_defect_exact in H as (msg & -> & H). exists msg; split; auto. apply (field_shape x s dv sv ty); auto. now apply descr_exact.
Qed.
Lemma type_reported_strong v : reported_at v /\ parts_reported v.
Proof.
  induction v as [ s | z | l IH | l IH | l IH | l IH | b | ] using value_rect'; (split; [ | try exact I ]);
    try (intros e H; injection H as <-; eexists; split; [ reflexivity | constructor; discriminate ]).
  - intros e H. cbn [from_descr] in H. apply bind_err in H as [ H | (? & _ & [=]) ]. apply convert_string_err in H as (msg & -> & H).
    eexists; split; [ reflexivity | now constructor ].
  - cbn. eapply Forall_impl; [ | exact IH ]. now intros ? (? & _).
  - intros e H. rewrite from_descr_list in H. apply bind_err in H as [ H | (? & _ & [=]) ]. apply mapM_err in H as (before & x & after & ys & -> & H1 & H2).
    apply fields_exact in H1. apply Forall_app in IH as (_ & IH). apply Forall_cons_iff in IH as ((_ & Hx) & _).
    apply field_reported in H2 as (msg & -> & H2); auto. exists msg; split; auto. eapply type_field; eauto.
  - cbn. eapply Forall_impl; [ | exact IH ]. now intros ? (? & _).
Qed.
Lemma type_defect_exact v e : from_descr v = Err e <-> exists msg, e = EData msg /\ type_defect v msg.
Proof. split; [ apply type_reported_strong | intros (msg & -> & H); now apply defect_reported ]. Qed.

(** * The header *)
Lemma string_keys_err pairs e : string_keys pairs = Err e <-> e = EData (lit "key is not string") /\ ~ named pairs.
Proof.
  unfold named. rewrite <- string_keys_iff. split.
  - intros H. split; [ | intros (k & Hk); congruence ]. revert H. induction pairs as [ | (k, v) l IH ]; cbn [string_keys]; [ discriminate | ].
    destruct k; try (intros [= <-]; reflexivity). intros H. apply bind_err in H as [ H | (? & _ & [=]) ]. auto.
  - intros (-> & H). induction pairs as [ | (k, v) l IH ]; cbn [string_keys] in *; [ destruct H; eauto | ].
    destruct k; try reflexivity. unfold bind in *. destruct (string_keys l) as [ r | | ]; cbn [bind] in *; [ destruct H; eauto | | ].
    + apply IH. intros (r & Hr); discriminate Hr.
    + exfalso. discriminate IH. intros (r & Hr); discriminate Hr.
Qed.
Lemma named_pairs pairs : named pairs -> exists kvs, string_keys pairs = Ok kvs /\ pairs = map (fun p => (VString (fst p), snd p)) kvs.
Proof. intros H. apply string_keys_iff in H as (kvs & H). exists kvs. split; auto. now apply string_keys_ok. Qed.
Lemma get_last pairs kvs key v : pairs = map (fun p => (VString (fst p), snd p)) kvs -> map_get key kvs = Some v <-> last_value key pairs v.
Proof. intros ->. apply map_get_last. Qed.
Lemma get_absent pairs kvs key : pairs = map (fun p => (VString (fst p), snd p)) kvs -> map_get key kvs = None <-> absent key pairs.
Proof.
  intros ->. rewrite map_get_none. unfold absent. rewrite map_map. cbn [fst]. split; intros H Hi; apply H.
  - apply in_map_iff in Hi as (p & E & Hp). apply VString_inj in E as <-. now apply in_map.
  - apply in_map_iff in Hi as (p & <- & Hp). apply in_map_iff. exists p. auto.
Qed.
Lemma from_parts_err c d shape o e : from_parts c d shape o = Err e <->
  e = EData (lit "dtype is larger than usize!") /\ (c_ovf_panics c = true -> leading_fit shape) /\ ~ has_object d /\ ~ sizes_fit (c_usize_max c) d.
Proof.
  unfold from_parts. assert (Hp : (c_ovf_panics c = true -> leading_fit shape) \/ product c shape = Panic).
  { destruct (leading_fit_dec shape); [ auto | ]. destruct (c_ovf_panics c) eqn:E; [ right; now apply product_panic | left; discriminate ]. }
  split.
  - intros H. apply bind_err in H as [ H | (n & Hn & H) ].
    { destruct Hp as [ Hp | Hp ]; [ rewrite (product_exact _ _ Hp) in H | rewrite Hp in H ]; discriminate. }
    destruct Hp as [ Hp | Hp ]; [ | congruence ]. apply bind_err in H as [ H | (i & Hi & H) ].
    + destruct (uses_pickled_array d) eqn:Eu; [ discriminate | ]. destruct (num_bytes c d) as [ b | ] eqn:Eb; [ discriminate | ]. injection H as <-.
      assert (No : ~ has_object d) by (rewrite <- pickled_exact; congruence). split; auto. split; auto. split; auto. intros Hs.
      assert (num_bytes c d = Some (size d)) by (apply num_bytes_exact; auto). congruence.
    + exfalso. assert (Hs : strides c o shape = Panic \/ exists s, strides c o shape = Ok s).
      { destruct o; [ destruct (trailing_fit_dec shape) | destruct (leading_fit_dec shape) ].
        1, 3: right; eexists; now apply strides_exact.
        all: destruct (c_ovf_panics c) eqn:E; [ left; now apply strides_panic | right; eexists; apply strides_exact; congruence ]. }
      destruct Hs as [ Hs | (s & Hs) ]; rewrite Hs in H; discriminate.
  - intros (-> & Hl & Ho & Hs). rewrite product_exact by auto. cbn [bind].
    destruct (item_size_ok c d _ eq_refl) as [ (H & _) | [ (_ & H & _) | (_ & e & _) ] ]; [ tauto | tauto | ].
    destruct (uses_pickled_array d) eqn:Eu; [ now apply pickled_exact in Eu | ]. destruct (num_bytes c d) as [ b | ] eqn:Eb; [ apply num_bytes_exact in Eb; tauto | ]. reflexivity.
Qed.

Lemma header_defect_exact c hv e : interpret_header c hv = Err e <-> exists msg, e = EData msg /\ header_defect c hv msg.
Proof.
  split.
  - intros H. destruct hv as [ | | | | pairs | | | ]; try (injection H as <-; eexists; split; [ reflexivity | constructor; discriminate ]).
    cbn [interpret_header] in H. apply bind_err in H as [ H | (kvs & Hk & H) ].
    { apply string_keys_err in H as (-> & H). eexists; split; [ reflexivity | now constructor ]. }
    assert (Hn : named pairs) by (apply string_keys_iff; eauto). apply string_keys_ok in Hk.
    unfold expect_key in H. destruct (map_get (lit "fortran_order") kvs) as [ fo | ] eqn:Ef; cbn [bind] in H.
    2:{ injection H as <-. eexists; split; [ reflexivity | ]. apply order_absent; auto. now apply (get_absent pairs kvs). }
    apply (get_last pairs kvs) in Ef; auto. destruct fo as [ | | | | | | b | ];
      try (injection H as <-; eexists; split; [ reflexivity | eapply order_kind; eauto; discriminate ]). cbn [bind] in H.
    destruct (map_get (lit "shape") kvs) as [ sv | ] eqn:Es; cbn [bind] in H.
    2:{ injection H as <-. eexists; split; [ reflexivity | ]. eapply shape_absent; eauto. now apply (get_absent pairs kvs). }
    apply (get_last pairs kvs) in Es; auto. apply bind_err in H as [ H | (shape & Hs & H) ].
    { apply shape_defect_exact in H as (msg & -> & H). exists msg. split; auto. eapply shape_bad; eauto. }
    apply shape_ok in Hs. destruct (map_get (lit "descr") kvs) as [ dv | ] eqn:Ed; cbn [bind] in H.
    2:{ injection H as <-. eexists; split; [ reflexivity | ]. eapply type_absent; eauto. now apply (get_absent pairs kvs). }
    apply (get_last pairs kvs) in Ed; auto. apply bind_err in H as [ H | (d & Hd & H) ].
    { apply type_defect_exact in H as (msg & -> & H). exists msg. split; auto. eapply type_bad; eauto. }
    apply descr_exact in Hd. apply from_parts_err in H as (-> & H1 & H2 & H3). eexists; split; [ reflexivity | ].
    eapply item_large with (shape := shape) (o := from_fortran_order b); eauto. exists pairs, dv, sv, b.
    split; [ auto | ]. split; [ auto | ]. split; [ auto | ]. split; [ auto | ]. split; [ auto | ]. split; [ auto | ]. split; [ auto | reflexivity ].
  - intros (msg & -> & H). destruct H as [ v H | pairs H | pairs Hn H | pairs v Hn H Hv | pairs b Hn Hf H | pairs b sv msg Hn Hf Hs H | pairs b sv shape Hn Hf Hs Hsv H
      | pairs b sv shape dv msg Hn Hf Hs Hsv Hd H | v d shape o H1 H2 H3 H4 ].
    + destruct v as [ | | | | pairs | | | ]; try reflexivity. now destruct (H pairs).
    + cbn [interpret_header]. rewrite (proj2 (string_keys_err pairs _) (conj eq_refl H)). reflexivity.
    + destruct (named_pairs pairs Hn) as (kvs & Ek & E). cbn [interpret_header]. rewrite Ek. cbn [bind]. unfold expect_key. apply (get_absent _ _ _ E) in H. rewrite H. reflexivity.
    + destruct (named_pairs pairs Hn) as (kvs & Ek & E). cbn [interpret_header]. rewrite Ek. cbn [bind]. unfold expect_key. apply (get_last _ _ _ _ E) in H. rewrite H. cbn [bind].
      destruct v as [ | | | | | | b | ]; try reflexivity. now destruct (Hv b).
    + destruct (named_pairs pairs Hn) as (kvs & Ek & E). cbn [interpret_header]. rewrite Ek. cbn [bind]. unfold expect_key. apply (get_last _ _ _ _ E) in Hf. apply (get_absent _ _ _ E) in H.
      rewrite Hf. cbn [bind]. rewrite H. reflexivity.
    + destruct (named_pairs pairs Hn) as (kvs & Ek & E). cbn [interpret_header]. rewrite Ek. cbn [bind]. unfold expect_key. apply (get_last _ _ _ _ E) in Hf, Hs.
      rewrite Hf. cbn [bind]. rewrite Hs. cbn [bind]. rewrite (proj2 (shape_defect_exact sv (EData msg))) by eauto. reflexivity.
    + destruct (named_pairs pairs Hn) as (kvs & Ek & E). cbn [interpret_header]. rewrite Ek. cbn [bind]. unfold expect_key. apply (get_last _ _ _ _ E) in Hf, Hs. apply (get_absent _ _ _ E) in H.
      rewrite Hf. cbn [bind]. rewrite Hs. cbn [bind]. apply shape_ok in Hsv. rewrite Hsv. cbn [bind]. rewrite H. reflexivity.
    + destruct (named_pairs pairs Hn) as (kvs & Ek & E). cbn [interpret_header]. rewrite Ek. cbn [bind]. unfold expect_key. apply (get_last _ _ _ _ E) in Hf, Hs, Hd.
      rewrite Hf. cbn [bind]. rewrite Hs. cbn [bind]. apply shape_ok in Hsv. rewrite Hsv. cbn [bind]. rewrite Hd. cbn [bind].
      rewrite (proj2 (type_defect_exact dv (EData msg))) by eauto. reflexivity.
    + rewrite (interpret_parts c v d shape o H1). apply from_parts_err. auto.
Qed.

(** * Text *)
Lemma line_strip txt content : line txt content <-> strip_newline txt = content.
Proof.
  unfold line. split.
  - intros [ -> | (-> & H) ]; [ apply strip_newline_end | ]. destruct (strip_newline_cases content) as [ E | E ]; auto. now destruct (H (strip_newline content)).
  - intros <-. destruct txt as [ | b p _ ] using rev_ind; [ right; split; [ reflexivity | ]; intros t; destruct t; discriminate | ].
    destruct (N.eq_dec b 10) as [ -> | Hb ]; [ left; now rewrite strip_newline_end | ]. right. rewrite P_Open.strip_newline_other by auto. split; auto.
    intros t E. apply app_inj_tail in E as (_ & E). contradiction.
Qed.
Inductive text_defect (txt : bytes) : text -> Prop :=
| text_utf8 : (forall s, Forall (fun ch => scalar_value ch = true) s -> utf8_string s <> strip_newline txt) -> text_defect txt (lit "could not parse utf-8")
| text_literal s : utf8_string s = strip_newline txt -> Forall (fun ch => scalar_value ch = true) s -> (forall v, ~ python_literal s v) ->
    text_defect txt (lit "could not parse Python expression: ").
Lemma text_defect_exact txt e : Forall (fun b => b < 256) txt -> parse_header_text txt = Err e <-> exists msg, e = EData msg /\ text_defect txt msg.
Proof.
  intros Hb. pose proof (strip_newline_sub txt Hb) as Hs. unfold parse_header_text. split.
  - destruct (from_utf8 (strip_newline txt)) as [ s | ] eqn:E.
    + apply utf8_exact in E as (Hc & E); auto. destruct (parse_literal s) as [ v | ] eqn:Ep; [ discriminate | ]. intros [= <-]. eexists; split; [ reflexivity | ].
      apply (text_literal txt s); auto. intros v Hv. apply parse_complete in Hv. congruence.
    + intros [= <-]. eexists; split; [ reflexivity | ]. constructor. intros s Hc E'. assert (from_utf8 (strip_newline txt) = Some s) by (apply utf8_exact; auto). congruence.
  - intros (msg & -> & [ H | s E Hc H ]).
    + destruct (from_utf8 (strip_newline txt)) as [ s | ] eqn:E; [ | reflexivity ]. apply utf8_exact in E as (Hc & E); auto. now apply H in E.
    + rewrite (proj2 (utf8_exact _ s Hs)) by auto. destruct (parse_literal s) as [ v | ] eqn:Ep; [ | reflexivity ]. apply parse_sound in Ep. now apply H in Ep.
Qed.

(** * The file *)
Lemma read_header_short input : (forall a b more, input <> 0x93 :: lit "NUMPY" ++ a :: b :: more) ->
  fst (run read_header input) = Err (EData (lit "magic not found for NPY file")).
Proof.
  intros H. unfold read_header, read_pre_header, read_magic_and_version. rewrite run_bind, run_bind. cbn [run].
  destruct (N.leb_spec 8 (lenN input)) as [ H8 | H8 ]; [ | reflexivity ].
  destruct (eqb_list (takeN 6 (takeN 8 input)) magic) eqn:Em; [ | reflexivity ]. exfalso.
  apply magic_split in Em; [ | rewrite lenN_takeN; lia ]. apply (H (nth 6 (takeN 8 input) 0) (nth 7 (takeN 8 input) 0) (dropN 8 input)).
  rewrite <- (takeN_dropN 8 input) at 1. rewrite Em at 1. reflexivity.
Qed.
Definition version_tail (a b : N) : rprog value :=
  match get_version_props (a, b) with
  | None => RErr (EData (lit "unsupported version: (" ++ dec a ++ lit ", " ++ dec b ++ lit ")"))
  | Some p => let! bs := read_exact (if vp_u32 p then 4 else 2) in let! txt := read_exact (le_value bs) in rlift (parse_header_text txt)
  end.
Lemma read_header_tail a b more : run read_header (0x93 :: lit "NUMPY" ++ a :: b :: more) = run (version_tail a b) more.
Proof.
  change (0x93 :: lit "NUMPY" ++ a :: b :: more) with ((magic ++ [a; b]) ++ more).
  unfold read_header, read_pre_header, read_magic_and_version. rewrite run_bind, run_bind. cbn [run].
  replace (8 <=? lenN ((magic ++ [a; b]) ++ more)) with true by (rewrite lenN_app; change (lenN (magic ++ [a; b])) with 8; lia).
  rewrite takeN_app, dropN_app by reflexivity. change (eqb_list (takeN 6 (magic ++ [a; b])) magic) with true. cbn [run then_ nth magic lit app].
  unfold version_tail. destruct (get_version_props (a, b)) as [ p | ]; [ | reflexivity ]. rewrite !run_bind. destruct (run (read_exact _) more) as ([ bs | e | ], rest); cbn [then_ run snd]; try reflexivity.
Qed.
Lemma known_version a b : (exists p, get_version_props (a, b) = Some p) <-> b = 0 /\ (a = 1 \/ a = 2 \/ a = 3).
Proof.
  split.
  - intros (p & H). unfold get_version_props in H. destruct (N.eqb_spec b 0); [ | rewrite !andb_false_r in H; discriminate ]. split; auto.
    destruct (N.eqb_spec a 1); auto. destruct (N.eqb_spec a 2); auto. destruct (N.eqb_spec a 3); auto. discriminate.
  - intros (-> & [ -> | [ -> | -> ] ]); eexists; reflexivity.
Qed.
Lemma version_width a p : get_version_props (a, 0) = Some p -> (if vp_u32 p then 4 else 2) = (if a =? 1 then 2 else 4).
Proof.
  intros H. destruct (proj1 (known_version a 0) (ex_intro _ _ H)) as (_ & [ -> | [ -> | -> ] ]); injection H as <-; reflexivity.
Qed.
Lemma read_header_preamble pre txt rest : preamble_of pre txt -> run read_header (pre ++ rest) = (parse_header_text txt, rest).
Proof.
  intros (a & len & -> & Ha & Hlen & Hle). cbn [app]. rewrite <- !app_assoc. cbn [app]. rewrite read_header_tail. unfold version_tail.
  destruct (proj2 (known_version a 0) (conj eq_refl Ha)) as (p & Hp). rewrite Hp, (version_width a p Hp), <- Hlen, <- app_assoc, run_bind, run_read_exact by reflexivity. cbn [then_].
  rewrite run_bind, run_read_exact by (rewrite <- little_endian_le; now rewrite Hle). cbn [then_]. apply run_lift.
Qed.
Lemma read_header_cut a more : (a = 1 \/ a = 2 \/ a = 3) -> let input := 0x93 :: lit "NUMPY" ++ a :: 0 :: more in
  (exists pre txt rest, input = pre ++ rest /\ preamble_of pre txt) \/ fst (run read_header input) = Err EUnexpectedEof.
Proof.
  intros Ha input. unfold input. rewrite read_header_tail. unfold version_tail.
  destruct (proj2 (known_version a 0) (conj eq_refl Ha)) as (p & Hp). rewrite Hp, (version_width a p Hp). set (w := if a =? 1 then 2 else 4).
  rewrite run_bind. unfold read_exact at 1. cbn [run]. destruct (N.leb_spec w (lenN more)) as [ H1 | H1 ]; [ | now right ]. cbn [then_].
  rewrite run_bind. unfold read_exact. cbn [run]. destruct (N.leb_spec (le_value (takeN w more)) (lenN (dropN w more))) as [ H2 | H2 ]; [ | now right ]. left.
  set (n := le_value (takeN w more)) in *. exists (0x93 :: lit "NUMPY" ++ [a; 0] ++ takeN w more ++ takeN n (dropN w more)), (takeN n (dropN w more)), (dropN n (dropN w more)). split.
  - cbn [app]. rewrite <- !app_assoc. cbn [app]. rewrite <- app_assoc, takeN_dropN, takeN_dropN. reflexivity.
  - exists a, (takeN w more). split; [ reflexivity | ]. split; [ auto | ]. split; [ rewrite lenN_takeN; unfold w in *; lia | ]. rewrite little_endian_le, lenN_takeN. lia.
Qed.

Lemma magic_cases input : (forall a b more, input <> 0x93 :: lit "NUMPY" ++ a :: b :: more) \/ exists a b more, input = 0x93 :: lit "NUMPY" ++ a :: b :: more.
Proof.
  destruct (N.leb_spec 8 (lenN input)) as [ H8 | H8 ].
  - destruct (eqb_list (takeN 6 (takeN 8 input)) magic) eqn:Em.
    + right. apply magic_split in Em; [ | rewrite lenN_takeN; lia ]. exists (nth 6 (takeN 8 input) 0), (nth 7 (takeN 8 input) 0), (dropN 8 input).
      rewrite <- (takeN_dropN 8 input) at 1. rewrite Em at 1. reflexivity.
    + left. intros a b more ->. change (0x93 :: lit "NUMPY" ++ a :: b :: more) with ((magic ++ [a; b]) ++ more) in Em. rewrite takeN_app in Em by reflexivity. discriminate Em.
  - left. intros a b more ->. change (0x93 :: lit "NUMPY" ++ a :: b :: more) with ((magic ++ [a; b]) ++ more) in H8. rewrite lenN_app in H8. change (lenN (magic ++ [a; b])) with 8 in H8. lia.
Qed.

Lemma then_err {A B} (r : res A * bytes) (k : A -> bytes -> res B * bytes) e : fst r = Err e -> fst (then_ r k) = Err e.
Proof. destruct r as ([ | | ], ?); cbn; congruence. Qed.

Lemma file_defect_exact c bs e : Forall (fun b => b < 256) bs -> fst (run (read_and_interpret c) bs) = Err e <-> file_defect c bs e.
Proof.
  intros Hb. unfold read_and_interpret. rewrite run_bind.
  assert (Hpre : forall pre txt rest, bs = pre ++ rest -> preamble_of pre txt ->
    fst (then_ (run read_header bs) (fun v rest => run (rlift (interpret_header c v)) rest)) = let* hv := parse_header_text txt in interpret_header c hv).
  { intros pre txt rest -> Hp. rewrite (read_header_preamble _ _ _ Hp). destruct (parse_header_text txt) as [ hv | | ]; cbn [then_ bind fst]; try reflexivity. now rewrite run_lift. }
  split.
  - intros H. destruct (magic_cases bs) as [ Hm | (a & b & more & E) ].
    { rewrite (then_err _ _ _ (read_header_short bs Hm)) in H. injection H as <-. now constructor. }
    destruct (get_version_props (a, b)) as [ p | ] eqn:Ev.
    2:{ rewrite E, read_header_tail in H. unfold version_tail in H. rewrite Ev in H. cbn in H. injection H as <-.
        apply (unknown_version c bs a b more (dec a) (dec b)); auto; [ | now apply decimal_exact | now apply decimal_exact ].
        intros Hk. apply known_version in Hk as (p & Hk). congruence. }
    destruct (proj1 (known_version a b) (ex_intro _ _ Ev)) as (-> & Ha).
    destruct (read_header_cut a more Ha) as [ (pre & txt & rest & Ep & Hp) | Hc ].
    + rewrite <- E in Ep. rewrite (Hpre _ _ _ Ep Hp) in H. assert (Ht : Forall (fun b => b < 256) txt) by (rewrite Ep in Hb; eapply preamble_bytes; eauto).
      apply bind_err in H as [ H | (hv & Hv & H) ].
      * apply text_defect_exact in H as (msg & -> & [ H | s Es Hs H ]); auto.
        -- eapply not_utf8; eauto. now apply line_strip.
        -- eapply not_literal; eauto. apply line_strip. now rewrite Es.
      * apply header_text_exact in Hv; auto. apply header_defect_exact in H as (msg & -> & H). eapply bad_header; eauto.
    + rewrite <- E in Hc. rewrite (then_err _ _ _ Hc) in H. injection H as <-. eapply cut_short; eauto.
      intros pre txt rest Ep Hp. rewrite Ep, (read_header_preamble _ _ _ Hp) in Hc. cbn [fst] in Hc.
      unfold parse_header_text in Hc. destruct (from_utf8 _); [ destruct (parse_literal _) | ]; discriminate.
  - intros [ H | a b more na nb E Hv Hna Hnb | a more E Ha H | pre txt content rest E Hp Hl H | pre txt s rest E Hp Hl Hs H | pre txt rest hv msg E Hp Ht H ].
    + now apply then_err, read_header_short.
    + apply then_err. rewrite E, read_header_tail. unfold version_tail. destruct (get_version_props (a, b)) as [ p | ] eqn:Ev; [ destruct Hv; apply known_version; eauto | ].
      apply decimal_exact in Hna, Hnb. subst. reflexivity.
    + destruct (read_header_cut a more Ha) as [ (pre & txt & rest & Ep & Hp) | Hc ]; [ rewrite <- E in Ep; destruct (H pre txt rest Ep Hp) | ]. rewrite <- E in Hc. now apply then_err.
    + rewrite (Hpre _ _ _ E Hp). apply bind_err. left. assert (Ht : Forall (fun b => b < 256) txt) by (rewrite E in Hb; eapply preamble_bytes; eauto).
      apply text_defect_exact; auto. eexists; split; [ reflexivity | ]. apply (text_utf8 txt). apply line_strip in Hl. rewrite Hl. exact H.
    + rewrite (Hpre _ _ _ E Hp). apply bind_err. left. assert (Ht : Forall (fun b => b < 256) txt) by (rewrite E in Hb; eapply preamble_bytes; eauto).
      apply text_defect_exact; auto. eexists; split; [ reflexivity | ]. apply line_strip in Hl. eapply text_literal; eauto.
    + rewrite (Hpre _ _ _ E Hp). assert (Hb' : Forall (fun b => b < 256) txt) by (rewrite E in Hb; eapply preamble_bytes; eauto).
      apply header_text_exact in Ht; auto. rewrite Ht. cbn [bind]. apply header_defect_exact. eauto.
Qed.

(** * [DType::parse] *)
Lemma octets_end ch : ch <> 10 -> scalar_value ch = true -> exists l b, utf8_octets ch = l ++ [b] /\ b <> 10.
Proof.
  intros Hn Hc. unfold utf8_octets. destruct (N.ltb_spec ch 0x80); [ exists [], ch; auto | ]. destruct (N.ltb_spec ch 0x800); [ | destruct (N.ltb_spec ch 0x10000) ].
  - eexists [_], _. split; [ reflexivity | ]. lia.
  - eexists [_; _], _. split; [ reflexivity | ]. lia.
  - eexists [_; _; _], _. split; [ reflexivity | ]. lia.
Qed.
Lemma strip_utf8 s : Forall (fun ch => scalar_value ch = true) s -> exists t, Forall (fun ch => scalar_value ch = true) t /\ strip_newline (utf8_string s) = utf8_string t.
Proof.
  intros H. destruct s as [ | ch p _ ] using rev_ind; [ exists []; auto | ]. apply Forall_app in H as (Hp & Hc). apply Forall_cons_iff in Hc as (Hc & _).
  assert (E : utf8_string (p ++ [ch]) = utf8_string p ++ utf8_octets ch) by (unfold utf8_string; rewrite flat_map_app; cbn [flat_map]; now rewrite app_nil_r).
  destruct (N.eq_dec ch 10) as [ -> | Hn ].
  - exists p. split; auto. rewrite E. apply strip_newline_end.
  - exists (p ++ [ch]). split; [ apply Forall_app; auto | ]. rewrite E. destruct (octets_end ch Hn Hc) as (l & b & -> & Hb). rewrite app_assoc. now apply P_Open.strip_newline_other.
Qed.
Lemma parse_defect_exact src e : Forall (fun ch => scalar_value ch = true) src ->
  dtype_parse src = Err e <->
    (e = EData (lit "could not parse Python expression: ") /\ forall l v, src = l \/ src = l ++ [10] -> ~ python_literal l v)
    \/ exists l v msg, (src = l \/ src = l ++ [10]) /\ python_literal l v /\ type_defect v msg /\ e = EData msg.
Proof.
  intros Hs. unfold dtype_parse. change utf8 with utf8_string. pose proof (utf8_bytes src Hs) as Hb.
  assert (Hv : forall v, parse_header_text (utf8_string src) = Ok v <-> exists l, (src = l \/ src = l ++ [10]) /\ python_literal l v).
  { intros v. rewrite header_text_exact by auto. split.
    - intros (l & Hl & E & Hp). exists l. split; auto. destruct E as [ E | E ]; [ left; now apply utf8_string_inj | right ].
      apply utf8_string_inj; auto; [ apply Forall_app; auto | ]. rewrite E. unfold utf8_string. now rewrite flat_map_app.
    - intros (l & E & Hp). exists l. destruct E as [ -> | -> ]; [ auto | ]. apply Forall_app in Hs as (Hl & _). split; auto. split; auto. right. unfold utf8_string. now rewrite flat_map_app. }
  split.
  - intros H. apply bind_err in H as [ H | (v & Hp & H) ].
    + left. split.
      * apply text_defect_exact in H as (msg & -> & [ H | s E Hc H ]); auto. exfalso. destruct (strip_utf8 src Hs) as (t & Ht & E). eapply H; eauto.
      * intros l v E Hp. assert (parse_header_text (utf8_string src) = Ok v) by (apply Hv; eauto). congruence.
    + right. apply Hv in Hp as (l & E & Hp). apply type_defect_exact in H as (msg & -> & H). exists l, v, msg. auto.
  - intros [ (-> & H) | (l & v & msg & E & Hp & Hd & ->) ].
    + apply bind_err. left. destruct (parse_header_text (utf8_string src)) as [ v | e | ] eqn:Ep.
      * destruct (proj1 (Hv v) eq_refl) as (l & E & Hp). now destruct (H l v E).
      * apply text_defect_exact in Ep as (msg & -> & [ H' | s E Hc H' ]); auto. exfalso. destruct (strip_utf8 src Hs) as (t & Ht & E). eapply H'; eauto.
      * exfalso. unfold parse_header_text in Ep. destruct (from_utf8 _); [ destruct (parse_literal _) | ]; discriminate.
    + apply bind_err. right. exists v. split; [ apply Hv; eauto | ]. apply type_defect_exact. eauto.
Qed.

(** * Every input *)
Lemma file_defect_unique c bs e f : Forall (fun b => b < 256) bs -> file_defect c bs e -> file_defect c bs f -> e = f.
Proof. intros Hb He Hf. apply file_defect_exact in He, Hf; auto. congruence. Qed.
Lemma first_defect c bs e : Forall (fun b => b < 256) bs -> (exists rest, run (read_and_interpret c) bs = (Err e, rest)) <-> file_defect c bs e.
Proof.
  intros Hb. rewrite <- file_defect_exact by auto. split; [ intros (rest & ->); reflexivity | ].
  destruct (run (read_and_interpret c) bs) as (r, rest). cbn [fst]. intros ->. eauto.
Qed.
