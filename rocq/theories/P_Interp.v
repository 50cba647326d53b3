(** Interpreting headers. *)
From Coq Require Import Permutation.
From Verif Require Import M_Base M_Text M_TypeStr M_TypeErr M_PyLit M_IO M_Header M_Read S_TypeStr S_DType S_Shape S_Header S_Dict
  P_Base P_Number P_Text P_TypeStr P_TypeErr P_Header P_IO P_Shape P_WriteHeader P_Parse.
Open Scope N_scope.

(** Induction over values. *)
Fixpoint value_rect' (P : value -> Prop)
  (HS : forall s, P (VString s)) (HI : forall z, P (VInteger z))
  (HT : forall l, Forall P l -> P (VTuple l)) (HL : forall l, Forall P l -> P (VList l))
  (HD : forall l, Forall (fun p => P (fst p) /\ P (snd p)) l -> P (VDict l)) (HSet : forall l, Forall P l -> P (VSet l))
  (HB : forall b, P (VBool b)) (HN : P VNone) (v : value) : P v :=
  let rec := value_rect' P HS HI HT HL HD HSet HB HN in
  let go := fix go (l : list value) : Forall P l :=
      match l with [] => Forall_nil _ | x :: l' => Forall_cons x (rec x) (go l') end in
  match v with
  | VString s => HS s
  | VInteger z => HI z
  | VTuple l => HT l (go l)
  | VList l => HL l (go l)
  | VDict l =>
    HD l ((fix god (l : list (value * value)) : Forall (fun p => P (fst p) /\ P (snd p)) l :=
             match l with [] => Forall_nil _ | x :: l' => Forall_cons x (conj (rec (fst x)) (rec (snd x))) (god l') end) l)
  | VSet l => HSet l (go l)
  | VBool b => HB b
  | VNone => HN
  end.

Lemma mapM_ok {A B} (f : A -> res B) l : forall r, mapM f l = Ok r <-> Forall2 (fun a b => f a = Ok b) l r.
Proof.
  induction l as [ | a l IH ]; intros r; cbn [mapM]; split.
  - intros [= <-]. constructor.
  - intros H. inversion H. reflexivity.
  - intros H. apply bind_ok in H as (b & Hb & H). apply bind_ok in H as (bs & Hbs & H). injection H as <-. constructor; auto. now apply IH.
  - intros H. inversion H as [ | ? b ? bs Hb Hbs ]; subst. rewrite Hb. cbn [bind]. apply IH in Hbs. rewrite Hbs. reflexivity.
Qed.
Lemma Forall2_imp {A B} (P Q : A -> B -> Prop) l r : (forall a b, P a b -> Q a b) -> Forall2 P l r -> Forall2 Q l r.
Proof. intros H. induction 1; constructor; auto. Qed.
Lemma mapM_no_panic {A B} (f : A -> res B) l : Forall (fun a => f a <> Panic) l -> mapM f l <> Panic.
Proof.
  induction 1 as [ | a l Ha _ IH ]; cbn [mapM]; [ discriminate | ]. destruct (f a); cbn [bind]; try congruence.
  destruct (mapM f l); cbn [bind]; congruence.
Qed.

(** * Shapes *)
Lemma shape_integer_ok v n : convert_value_to_shape_integer v = Ok n <-> v = VInteger (Z.of_N n) /\ n < 2 ^ 64.
Proof.
  destruct v; cbn [convert_value_to_shape_integer]; split; try discriminate; try (intros (? & ?); congruence).
  - destruct (Z.ltb_spec z 0); [ discriminate | ]. destruct (Z.ltb_spec z (2 ^ 64)); [ | discriminate ]. intros [= <-].
    rewrite Z2N.id by lia. split; [ reflexivity | lia ].
  - intros ([= ->] & H). replace (Z.of_N n <? 0)%Z with false by lia. replace (Z.of_N n <? 2 ^ 64)%Z with true by lia. now rewrite N2Z.id.
Qed.
Lemma shape_ok v shape : convert_value_to_shape v = Ok shape <-> shape_value v shape.
Proof.
  assert (E : forall l, mapM convert_value_to_shape_integer l = Ok shape <-> Forall2 (fun x n => x = VInteger (Z.of_N n) /\ n < 2 ^ 64) l shape).
  { intros l. rewrite mapM_ok. split; intros H; (eapply Forall2_imp; [ | exact H ]); intros a b; apply shape_integer_ok. }
  unfold shape_value. split.
  - destruct v; cbn [convert_value_to_shape]; intros H; try discriminate; apply E in H; eexists; split; eauto.
  - intros (l & [ -> | -> ] & H); now apply E.
Qed.
Lemma shape_integer_no_panic v : convert_value_to_shape_integer v <> Panic.
Proof. destruct v; cbn; try discriminate. destruct (_ <? _)%Z; [ discriminate | ]. destruct (_ <? _)%Z; discriminate. Qed.
Lemma shape_no_panic v : convert_value_to_shape v <> Panic.
Proof. destruct v; cbn; try discriminate; apply mapM_no_panic; apply Forall_forall; intros; apply shape_integer_no_panic. Qed.
Lemma shape_value_bound v shape : shape_value v shape -> Forall (fun n => n < 2 ^ 64) shape.
Proof. intros (l & _ & H). induction H as [ | ? ? ? ? (_ & ?) ]; constructor; auto. Qed.

(** * Type descriptions *)
Scheme describes_ind' := Induction for describes Sort Prop
  with describes_fields_ind' := Induction for describes_fields Sort Prop
  with describes_field_ind' := Induction for describes_field Sort Prop.
Combined Scheme describes_mut from describes_ind', describes_fields_ind', describes_field_ind'.

Lemma type_str_ok s t : convert_string_to_type_str s = Ok t <-> spells s t.
Proof.
  unfold convert_string_to_type_str. rewrite <- parse_exact. destruct (type_str_parse s) as [ | e | ]; [ split; congruence | | split; congruence ].
  destruct (parse_error_display e); cbn [bind]; split; congruence.
Qed.

Lemma descr_sound : (forall v d, describes v d -> from_descr v = Ok d)
  /\ (forall l fs, describes_fields l fs -> mapM conv_field l = Ok fs)
  /\ (forall v name d, describes_field v name d -> conv_field v = Ok (name, d)).
Proof.
  apply describes_mut.
  - intros s t H. cbn [from_descr]. apply type_str_ok in H. now rewrite H.
  - intros l fs _ IH. rewrite from_descr_list, IH. reflexivity.
  - reflexivity.
  - intros v l name d fs _ H1 _ H2. cbn [mapM]. rewrite H1. cbn [bind]. rewrite H2. reflexivity.
  - intros v name dv d [ -> | -> ] _ H; cbn [conv_field]; rewrite H; reflexivity.
  - intros v name dv sv d shape Hv _ H Hs. apply shape_ok in Hs. destruct Hv as [ -> | -> ]; cbn [conv_field]; rewrite H; cbn [bind]; rewrite Hs; reflexivity.
Qed.

Definition complete_at (v : value) : Prop := forall d, from_descr v = Ok d -> describes v d.
Definition part_complete (v : value) : Prop := match v with VTuple l | VList l => Forall complete_at l | _ => True end.

Lemma conv_field_complete v f : part_complete v -> conv_field v = Ok f -> describes_field v (fst f) (snd f).
Proof.
  assert (Main : forall l, Forall complete_at l -> forall mk, (forall a, mk a = VTuple a \/ mk a = VList a) ->
     (match l with
      | [VString name; d] => let* ty := from_descr d in Ok (name, ty)
      | [VString name; d; s] => let* ty := from_descr d in let* shape := convert_value_to_shape s in Ok (name, wrap_arrays shape ty)
      | _ => Err ESink
      end) = Ok f -> describes_field (mk l) (fst f) (snd f)).
  { intros l Hl mk Hmk H. destruct l as [ | n [ | d [ | s [ | z l ] ] ] ]; try discriminate.
    - destruct n; discriminate.
    - destruct n; try discriminate. apply bind_ok in H as (ty & Hty & H). injection H as <-. cbn [fst snd].
      inversion Hl as [ | ? ? _ Hl' ]; subst. inversion Hl' as [ | ? ? Hd _ ]; subst.
      destruct (Hmk [VString s; d]) as [ -> | -> ]; (eapply field_pair; [ | apply Hd, Hty ]); auto.
    - destruct n as [ nm | | | | | | | ]; try discriminate. apply bind_ok in H as (ty & Hty & H). apply bind_ok in H as (shape & Hs & H). injection H as <-. cbn [fst snd].
      inversion Hl as [ | ? ? _ Hl' ]; subst. inversion Hl' as [ | ? ? Hd _ ]; subst. apply shape_ok in Hs.
      destruct (Hmk [VString nm; d; s]) as [ -> | -> ]; (eapply field_triple; [ | apply Hd, Hty | exact Hs ]); auto.
    - destruct n; discriminate. }
  intros Hv H. destruct v as [ s | z | l | l | l | l | b | ]; try discriminate.
  - apply (Main l Hv VTuple); [ auto | ]. cbn [conv_field] in H. destruct l as [ | n [ | d [ | s [ | z l ] ] ] ]; try discriminate; destruct n; try discriminate; exact H.
  - apply (Main l Hv VList); [ auto | ]. cbn [conv_field] in H. destruct l as [ | n [ | d [ | s [ | z l ] ] ] ]; try discriminate; destruct n; try discriminate; exact H.
Qed.

Lemma descr_complete_strong v : complete_at v /\ part_complete v.
Proof.
  induction v as [ s | z | l IH | l IH | l IH | l IH | b | ] using value_rect'; (split; [ | try exact I ]); try (intros d H; discriminate).
  - intros d H. cbn [from_descr] in H. apply bind_ok in H as (t & Ht & H). injection H as <-. constructor. now apply type_str_ok.
  - cbn. eapply Forall_impl; [ | exact IH ]. now intros ? (? & _).
  - intros d H. rewrite from_descr_list in H. apply bind_ok in H as (fs & Hfs & H). injection H as <-. constructor.
    revert fs Hfs. induction IH as [ | x l (_ & Hx) _ IHl ]; intros fs Hfs.
    + injection Hfs as <-. constructor.
    + cbn [mapM] in Hfs. apply bind_ok in Hfs as (f & Hf & Hfs). apply bind_ok in Hfs as (fs' & Hfs' & Hfs). injection Hfs as <-.
      destruct f as (name, d). constructor; [ now apply (conv_field_complete x (name, d)) | now apply IHl ].
  - cbn. eapply Forall_impl; [ | exact IH ]. now intros ? (? & _).
Qed.

Lemma descr_exact v d : from_descr v = Ok d <-> describes v d.
Proof. split; [ apply descr_complete_strong | apply descr_sound ]. Qed.

Definition no_panic_part (v : value) : Prop := match v with VTuple l | VList l => Forall (fun x => from_descr x <> Panic) l | _ => True end.
Lemma conv_field_no_panic v : no_panic_part v -> conv_field v <> Panic.
Proof.
  assert (B : forall A B (r : res A) (k : A -> res B), r <> Panic -> (forall a, k a <> Panic) -> bind r k <> Panic).
  { intros A B r k Hr Hk. destruct r; cbn [bind]; [ apply Hk | discriminate | congruence ]. }
  intros Hv. destruct v as [ s | z | l | l | l | l | b | ]; cbn [conv_field]; try discriminate; cbn [no_panic_part] in Hv;
    (destruct l as [ | n [ | d [ | s [ | z l ] ] ] ]; try discriminate); destruct n; try discriminate;
    inversion Hv as [ | ? ? _ Hv' ]; subst; inversion Hv' as [ | ? ? Hd _ ]; subst; apply B; auto; intros ?; try discriminate;
    (apply B; [ apply shape_no_panic | discriminate ]).
Qed.
Lemma from_descr_no_panic_strong v : from_descr v <> Panic /\ no_panic_part v.
Proof.
  induction v as [ s | z | l IH | l IH | l IH | l IH | b | ] using value_rect'; (split; [ | try exact I ]); try (intros H; discriminate).
  - cbn [from_descr]. unfold convert_string_to_type_str. pose proof (parse_no_panic s). destruct (type_str_parse s) as [ | e | ] eqn:E; [ cbn; congruence | | congruence ].
    destruct (display_total _ _ E) as (m & ->). cbn. discriminate.
  - cbn. eapply Forall_impl; [ | exact IH ]. now intros ? (? & _).
  - rewrite from_descr_list. assert (H : mapM conv_field l <> Panic).
    { apply mapM_no_panic. eapply Forall_impl; [ | exact IH ]. intros x (_ & Hx). now apply conv_field_no_panic. }
    destruct (mapM conv_field l); cbn [bind]; congruence.
  - cbn. eapply Forall_impl; [ | exact IH ]. now intros ? (? & _).
Qed.
Lemma from_descr_no_panic v : from_descr v <> Panic.
Proof. apply from_descr_no_panic_strong. Qed.

(** Everything described by scalar text is well-formed and top-level. *)
Lemma describes_wf :
  (forall v d, describes v d -> strings_ok v -> wf_dtype d /\ top_level d)
  /\ (forall l fs, describes_fields l fs -> all_strings_ok l -> wf_dtype (DRecord fs))
  /\ (forall v name d, describes_field v name d -> strings_ok v -> (forall ch, In ch name -> is_scalar ch = true) /\ wf_dtype d).
Proof.
  apply describes_mut.
  - intros s t H _. split; [ | exact I ]. cbn. now apply spells_legal in H.
  - intros l fs _ IH H. split; [ | exact I ]. apply IH. intros v Hv s Hs. apply H. cbn [strings_of]. apply in_flat_map. eauto.
  - intros _. exact I.
  - intros v l name d fs _ IH1 _ IH2 H. destruct IH1 as (H1 & H2); [ apply H; now left | ].
    split; [ exact H1 | ]. split; [ exact H2 | ]. apply IH2. intros x Hx. apply H. now right.
  - intros v name dv d Hv _ IH H. assert (Hs : forall s, In s (name :: strings_of dv) -> scal s).
    { intros s Hs. apply H. destruct Hv as [ -> | -> ]; cbn [strings_of flat_map app]; rewrite app_nil_r; exact Hs. }
    split; [ exact (Hs name (or_introl eq_refl)) | ]. apply IH. intros s Hin. apply Hs. now right.
  - intros v name dv sv d shape Hv _ IH Hshape H. assert (Hs : forall s, In s (name :: strings_of dv) -> scal s).
    { intros s Hs. apply H. destruct Hv as [ -> | -> ]; cbn [strings_of flat_map app]; rewrite app_nil_r; (destruct Hs as [ <- | Hs ]; [ now left | right; apply in_app_iff; now left ]). }
    split; [ exact (Hs name (or_introl eq_refl)) | ]. assert (Hd : wf_dtype d) by (apply IH; intros s Hin; apply Hs; now right).
    apply shape_value_bound in Hshape. induction Hshape as [ | n shape Hn _ IHs ]; [ exact Hd | ]. cbn. auto.
Qed.

(** * Dictionary lookups *)
Lemma string_keys_ok pairs kvs : string_keys pairs = Ok kvs <-> pairs = map (fun p => (VString (fst p), snd p)) kvs.
Proof.
  revert kvs. induction pairs as [ | (k, v) pairs IH ]; intros kvs; cbn [string_keys].
  - split; [ intros [= <-]; reflexivity | destruct kvs; [ reflexivity | discriminate ] ].
  - split.
    + destruct k; try discriminate. intros H. apply bind_ok in H as (r & Hr & H). injection H as <-. apply IH in Hr. now subst.
    + destruct kvs as [ | (s, w) kvs ]; [ discriminate | ]. cbn [map fst snd]. intros [= -> -> ->].
      rewrite (proj2 (IH kvs) eq_refl). reflexivity.
Qed.
Lemma string_keys_no_panic pairs : string_keys pairs <> Panic.
Proof. induction pairs as [ | (k, v) pairs IH ]; cbn [string_keys]; [ discriminate | ]. destruct k; try discriminate. destruct (string_keys pairs); cbn; congruence. Qed.

Lemma string_keys_iff pairs : (exists kvs, string_keys pairs = Ok kvs) <-> Forall (fun p => exists s, fst p = VString s) pairs.
Proof.
  split.
  - intros (kvs & H). apply string_keys_ok in H. subst. apply Forall_forall. intros p Hp. apply in_map_iff in Hp as (q & <- & _). cbn. eauto.
  - induction 1 as [ | (k, v) pairs (s & Hs) _ (kvs & IH) ]; cbn [string_keys]; [ eauto | ]. cbn in Hs. subst k. rewrite IH. cbn. eauto.
Qed.

Lemma VString_inj a b : VString a = VString b -> a = b.
Proof. now intros [= ->]. Qed.

Lemma map_get_none key kvs : map_get key kvs = None <-> ~ In key (map fst kvs).
Proof.
  induction kvs as [ | (k, v) kvs IH ]; cbn [map_get map fst In]; [ tauto | ].
  destruct (map_get key kvs) eqn:E.
  - split; [ discriminate | ]. intros H. exfalso. destruct (in_dec (list_eq_dec N.eq_dec) key (map fst kvs)) as [ Hi | Hi ]; [ tauto | ].
    apply IH in Hi. discriminate.
  - destruct (eqb_list k key) eqn:Ek.
    + apply eqb_list_eq in Ek. subst. split; [ discriminate | tauto ].
    + split; auto. intros _ [ -> | H ]; [ | apply IH in H; auto ]. rewrite (proj2 (eqb_list_eq key key) eq_refl) in Ek. discriminate.
Qed.
Lemma map_get_last key kvs v : map_get key kvs = Some v <-> last_value key (map (fun p => (VString (fst p), snd p)) kvs) v.
Proof.
  unfold last_value. split.
  - induction kvs as [ | (k, w) kvs IH ]; cbn [map_get]; [ discriminate | ]. destruct (map_get key kvs) as [ w' | ] eqn:E.
    + intros [= ->]. destruct (IH eq_refl) as (l1 & l2 & H1 & H2). exists ((VString k, w) :: l1), l2. split; auto. cbn [map fst snd app]. now rewrite H1.
    + destruct (eqb_list k key) eqn:Ek; [ | discriminate ]. intros [= <-]. apply eqb_list_eq in Ek. subst k.
      exists [], (map (fun p => (VString (fst p), snd p)) kvs). split; [ reflexivity | ].
      apply map_get_none in E. intros H. apply E. rewrite map_map in H. apply in_map_iff in H as (p & Hp & Hin). cbn in Hp. apply VString_inj in Hp. subst. now apply in_map.
  - intros (l1 & l2 & H1 & H2). revert kvs H1. induction l1 as [ | (k, w) l1 IH ]; intros kvs H1.
    + destruct kvs as [ | (s, x) kvs ]; [ discriminate | ]. cbn [map fst snd app] in H1. injection H1 as -> -> H1. cbn [map_get].
      assert (map_get key kvs = None) as ->.
      { apply map_get_none. intros H. apply H2. rewrite <- H1, map_map. apply in_map_iff in H as (p & <- & Hp). apply in_map_iff. exists p. auto. }
      now rewrite (proj2 (eqb_list_eq key key) eq_refl).
    + destruct kvs as [ | (s, x) kvs ]; [ discriminate | ]. cbn [map fst snd app] in H1. injection H1 as H0 -> H1. cbn [map_get]. now rewrite (IH kvs H1).
Qed.

Lemma interpret_ok c hv h : interpret_header c hv = Ok h <-> exists d shape o, header_says hv d shape o /\ from_parts c d shape o = Ok h.
Proof.
  split.
  - unfold interpret_header. destruct hv as [ | | | | pairs | | | ]; try discriminate. intros H.
    apply bind_ok in H as (kvs & Hk & H). apply bind_ok in H as (fo & Hf & H). apply bind_ok in H as (o & Ho & H).
    apply bind_ok in H as (sv & Hsv & H). apply bind_ok in H as (shape & Hsh & H). apply bind_ok in H as (dv & Hdv & H).
    apply bind_ok in H as (d & Hd & H).
    exists d, shape, o. split; [ | exact H ].
    unfold expect_key in *. destruct (map_get (lit "fortran_order") kvs) eqn:E1; [ | discriminate ]. injection Hf as ->.
    destruct (map_get (lit "shape") kvs) eqn:E2; [ | discriminate ]. injection Hsv as ->.
    destruct (map_get (lit "descr") kvs) eqn:E3; [ | discriminate ]. injection Hdv as ->.
    destruct fo as [ | | | | | | b | ]; try discriminate. injection Ho as <-.
    exists pairs, dv, sv, b. pose proof (proj1 (string_keys_iff pairs) (ex_intro _ _ Hk)) as Hall.
    apply string_keys_ok in Hk. apply map_get_last in E1, E2, E3. rewrite <- Hk in *.
    split; [ reflexivity | ]. split; [ exact Hall | ]. split; [ exact E3 | ]. split; [ now apply descr_exact | ].
    split; [ exact E2 | ]. split; [ now apply shape_ok | ]. split; [ exact E1 | reflexivity ].
  - intros (d & shape & o & (pairs & dv & sv & b & -> & Hall & H1 & H2 & H3 & H4 & H5 & ->) & H).
    apply string_keys_iff in Hall as (kvs & Hk). unfold interpret_header. rewrite Hk. cbn [bind]. apply string_keys_ok in Hk. subst pairs.
    apply map_get_last in H1, H3, H5. apply shape_ok in H4. apply descr_exact in H2.
    unfold expect_key. rewrite H5. cbn [bind]. rewrite H3. cbn [bind]. rewrite H4. cbn [bind]. rewrite H1. cbn [bind]. rewrite H2. cbn [bind]. exact H.
Qed.

Lemma header_says_unique hv d shape o d' shape' o' : header_says hv d shape o -> header_says hv d' shape' o' -> d = d' /\ shape = shape' /\ o = o'.
Proof.
  intros (pairs & dv & sv & b & -> & Hall & H1 & H2 & H3 & H4 & H5 & ->) (pairs' & dv' & sv' & b' & Ep & _ & H1' & H2' & H3' & H4' & H5' & ->).
  injection Ep as <-.
  apply string_keys_iff in Hall as (kvs & Hk). apply string_keys_ok in Hk. subst pairs.
  apply map_get_last in H1, H3, H5, H1', H3', H5'. rewrite H1 in H1'. rewrite H3 in H3'. rewrite H5 in H5'.
  injection H1' as <-. injection H3' as <-. injection H5' as <-.
  apply descr_exact in H2, H2'. apply shape_ok in H4, H4'. repeat split; congruence.
Qed.

Lemma from_parts_panic c d shape o : from_parts c d shape o = Panic -> c_ovf_panics c = true /\ ~ no_overflow shape.
Proof.
  intros H. split.
  - destruct (c_ovf_panics c) eqn:E; [ reflexivity | exfalso ]. unfold from_parts, product in H.
    destruct (N.eq_dec 0 1) as [ ? | _ ]; [ discriminate | ].
    rewrite product_from_wrap in H by (auto; reflexivity). cbn [bind] in H.
    assert (Hs : exists s, strides c o shape = Ok s).
    { unfold strides, prefix_products. destruct o.
      - destruct (prefix_products_wrap c (rev shape) E 1) as (r & -> & _). cbn. eauto.
      - destruct (prefix_products_wrap c shape E 1) as (r & -> & _). eauto. }
    destruct Hs as (s & Hs). rewrite Hs in H. destruct (uses_pickled_array d); [ discriminate | ]. destruct (num_bytes c d); discriminate.
  - intros Hno. unfold from_parts in H. rewrite strides_ok in H by auto. unfold product in H. rewrite product_from_fits in H by (now apply no_overflow_fits).
    cbn [bind] in H. destruct (uses_pickled_array d); [ discriminate | ]. destruct (num_bytes c d); discriminate.
Qed.

Lemma interpret_panic_parts c hv : interpret_header c hv = Panic -> exists d shape o, header_says hv d shape o /\ from_parts c d shape o = Panic.
Proof.
  intros H. unfold interpret_header in H. destruct hv as [ | | | | pairs | | | ]; try discriminate.
  destruct (string_keys pairs) as [ kvs | | ] eqn:Hk; try discriminate; [ | now apply string_keys_no_panic in Hk ]. cbn [bind] in H.
  unfold expect_key in *. destruct (map_get (lit "fortran_order") kvs) as [ fo | ] eqn:E1; [ | discriminate ]. cbn [bind] in H.
  destruct fo as [ | | | | | | b | ]; try discriminate. cbn [bind] in H.
  destruct (map_get (lit "shape") kvs) as [ sv | ] eqn:E2; [ | discriminate ]. cbn [bind] in H.
  destruct (convert_value_to_shape sv) as [ shape | | ] eqn:E4; try discriminate; [ | now apply shape_no_panic in E4 ]. cbn [bind] in H.
  destruct (map_get (lit "descr") kvs) as [ dv | ] eqn:E3; [ | discriminate ]. cbn [bind] in H.
  destruct (from_descr dv) as [ d | | ] eqn:E5; try discriminate; [ | now apply from_descr_no_panic in E5 ]. cbn [bind] in H.
  exists d, shape, (from_fortran_order b). split; [ | exact H ].
  exists pairs, dv, sv, b. pose proof (proj1 (string_keys_iff pairs) (ex_intro _ _ Hk)) as Hall.
  apply string_keys_ok in Hk. apply map_get_last in E1, E2, E3. rewrite <- Hk in *.
  split; [ reflexivity | ]. split; [ exact Hall | ]. split; [ exact E3 | ]. split; [ now apply descr_exact | ].
  split; [ exact E2 | ]. split; [ now apply shape_ok | ]. split; [ exact E1 | reflexivity ].
Qed.
Lemma interpret_panic c hv : interpret_header c hv = Panic -> c_ovf_panics c = true /\ exists d shape o, header_says hv d shape o /\ ~ no_overflow shape.
Proof.
  intros H. apply interpret_panic_parts in H as (d & shape & o & Hh & Hp). apply from_parts_panic in Hp as (? & ?). eauto 6.
Qed.
Lemma interpret_parts c hv d shape o : header_says hv d shape o -> interpret_header c hv = from_parts c d shape o.
Proof.
  intros (pairs & dv & sv & b & -> & Hall & H1 & H2 & H3 & H4 & H5 & ->).
  apply string_keys_iff in Hall as (kvs & Hk). unfold interpret_header. rewrite Hk. cbn [bind]. apply string_keys_ok in Hk. subst pairs.
  apply map_get_last in H1, H3, H5. apply shape_ok in H4. apply descr_exact in H2.
  unfold expect_key. rewrite H5. cbn [bind]. rewrite H3. cbn [bind]. rewrite H4. cbn [bind]. rewrite H1. cbn [bind]. rewrite H2. reflexivity.
Qed.

(** * Reading the preamble *)
Lemma parse_header_text_no_panic bs : parse_header_text bs <> Panic.
Proof. unfold parse_header_text. destruct (from_utf8 (strip_newline bs)); [ | discriminate ]. destruct (parse_literal t); discriminate. Qed.

Lemma magic_split buf : lenN buf = 8 -> eqb_list (takeN 6 buf) magic = true -> buf = magic ++ [nth 6 buf 0; nth 7 buf 0].
Proof.
  intros Hl He. apply eqb_list_eq in He. do 8 (destruct buf as [ | ? buf ]; [ discriminate Hl | ]).
  destruct buf; [ | repeat rewrite lenN_cons in Hl; lia ]. unfold takeN in He. cbn [N.to_nat Pos.to_nat Pos.iter_op Nat.add firstn] in He. cbn [nth].
  change (takeN 6 [n; n0; n1; n2; n3; n4; n5; n6]) with [n; n0; n1; n2; n3; n4] in He. rewrite <- He. reflexivity.
Qed.

Lemma read_header_match input :
  match run read_header input with
  | (Ok hv, rest) => exists pre txt, input = pre ++ rest /\ preamble_of pre txt /\ parse_header_text txt = Ok hv
  | (Err _, _) => True
  | (Panic, _) => False
  end.
Proof.
  unfold read_header, read_pre_header, read_magic_and_version. rewrite run_bind, run_bind. cbn [run].
  destruct (N.leb_spec 8 (lenN input)) as [ H8 | H8 ]; [ | exact I ].
  destruct (eqb_list (takeN 6 (takeN 8 input)) magic) eqn:Em; [ | exact I ]. cbn [run then_].
  apply magic_split in Em; [ | rewrite lenN_takeN; lia ].
  set (a := nth 6 (takeN 8 input) 0) in *. set (b := nth 7 (takeN 8 input) 0) in *. clearbody a b.
  destruct (get_version_props (a, b)) as [ p | ] eqn:Ev; [ | exact I ].
  assert (Hv : b = 0 /\ (a = 1 \/ a = 2 \/ a = 3) /\ (if a =? 1 then 2 else 4) = (if vp_u32 p then 4 else 2)).
  { unfold get_version_props in Ev.
    destruct (N.eqb_spec a 1); destruct (N.eqb_spec b 0); cbn [andb] in Ev;
    destruct (N.eqb_spec a 2); cbn [andb] in Ev; destruct (N.eqb_spec a 3); cbn [andb] in Ev; try discriminate;
    injection Ev as <-; cbn; auto. }
  destruct Hv as (Hb & Ha & Hlen). rewrite run_bind. unfold read_exact. cbn [run].
  set (nl := if vp_u32 p then 4 else 2) in *. set (r1 := dropN 8 input).
  destruct (N.leb_spec nl (lenN r1)) as [ Hn | Hn ]; [ | exact I ]. cbn [then_ run snd].
  rewrite run_bind. cbn [run].
  set (len := takeN nl r1). set (r2 := dropN nl r1).
  destruct (N.leb_spec (le_value len) (lenN r2)) as [ Ht | Ht ]; [ | exact I ]. cbn [then_]. rewrite run_lift.
  set (txt := takeN (le_value len) r2). set (rest := dropN (le_value len) r2).
  destruct (parse_header_text txt) as [ hv | e | ] eqn:Et; [ | exact I | now apply parse_header_text_no_panic in Et ].
  exists (magic ++ [a; b] ++ len ++ txt), txt. split; [ | split ]; auto.
  - rewrite <- (takeN_dropN 8 input), Em. fold r1. rewrite <- !app_assoc. f_equal. f_equal.
    unfold txt, rest. rewrite takeN_dropN. unfold len, r2. now rewrite takeN_dropN.
  - exists a, len. split; [ rewrite Hb; reflexivity | ]. split; auto. split.
    + unfold len. rewrite lenN_takeN. lia.
    + rewrite little_endian_le. unfold txt. rewrite lenN_takeN. lia.
Qed.
Lemma read_header_cases input :
  (exists e rest, run read_header input = (Err e, rest))
  \/ exists pre txt hv rest, input = pre ++ rest /\ preamble_of pre txt /\ parse_header_text txt = Ok hv /\ run read_header input = (Ok hv, rest).
Proof.
  pose proof (read_header_match input) as H. destruct (run read_header input) as ([ hv | e | ], rest); [ right | left; eauto | tauto ].
  destruct H as (pre & txt & H). exists pre, txt, hv, rest. tauto.
Qed.

Lemma read_header_run pre txt hv rest : preamble_of pre txt -> parse_header_text txt = Ok hv -> run read_header (pre ++ rest) = (Ok hv, rest).
Proof.
  intros (a & len & -> & Ha & Hlen & Hle) Ht.
  assert (exists props, get_version_props (a, 0) = Some props /\ (if vp_u32 props then 4 else 2) = lenN len) as (p & Hp & Hnl).
  { rewrite Hlen. destruct Ha as [ -> | [ -> | -> ] ]; eexists; split; reflexivity. }
  change (0x93 :: lit "NUMPY" ++ [a; 0] ++ len ++ txt) with ((magic ++ [a; 0]) ++ len ++ txt).
  unfold read_header, read_pre_header, read_magic_and_version. rewrite run_bind, run_bind.
  rewrite <- !app_assoc. set (R := len ++ txt ++ rest).
  cbn [run]. replace (8 <=? lenN (magic ++ [a; 0] ++ R)) with true by (rewrite app_assoc, lenN_app; change (lenN (magic ++ [a; 0])) with 8; lia).
  rewrite (app_assoc magic [a; 0] R), takeN_app, dropN_app by reflexivity.
  change (eqb_list (takeN 6 (magic ++ [a; 0])) magic) with true. cbn [run then_ nth magic lit app].
  rewrite Hp. rewrite run_bind, Hnl. unfold R. rewrite run_read_exact by reflexivity. cbn [then_ run snd].
  rewrite run_bind. rewrite run_read_exact by (rewrite <- little_endian_le; now rewrite Hle). cbn [then_]. rewrite run_lift, Ht. reflexivity.
Qed.

Lemma preamble_exact c input h rest : run (read_and_interpret c) input = (Ok h, rest) <->
  exists pre txt hv d shape o, input = pre ++ rest /\ preamble_of pre txt /\ parse_header_text txt = Ok hv
    /\ header_says hv d shape o /\ from_parts c d shape o = Ok h.
Proof.
  unfold read_and_interpret. rewrite run_bind. split.
  - destruct (read_header_cases input) as [ (e & r & E) | (pre & txt & hv & r & H1 & H2 & H3 & E) ]; rewrite E; cbn [then_]; [ discriminate | ].
    rewrite run_lift. intros [= H <-]. apply interpret_ok in H as (d & shape & o & Hs & Hp). now exists pre, txt, hv, d, shape, o.
  - intros (pre & txt & hv & d & shape & o & -> & H2 & H3 & H4 & H5). rewrite (read_header_run _ _ _ _ H2 H3). cbn [then_]. rewrite run_lift.
    now rewrite (proj2 (interpret_ok c hv h)) by eauto.
Qed.

Lemma preamble_panic c input : fst (run (read_and_interpret c) input) = Panic ->
  c_ovf_panics c = true /\ exists pre txt hv d shape o rest, input = pre ++ rest /\ preamble_of pre txt /\ parse_header_text txt = Ok hv
    /\ header_says hv d shape o /\ ~ no_overflow shape.
Proof.
  unfold read_and_interpret. rewrite run_bind.
  destruct (read_header_cases input) as [ (e & r & E) | (pre & txt & hv & r & H1 & H2 & H3 & E) ]; rewrite E; cbn [then_]; [ discriminate | ].
  rewrite run_lift. cbn [fst]. intros H. apply interpret_panic in H as (Hc & d & shape & o & Hs & Hn). split; auto. now exists pre, txt, hv, d, shape, o, r.
Qed.

Lemma preamble_panic_exact c input : fst (run (read_and_interpret c) input) = Panic <->
  exists pre txt hv d shape o rest, input = pre ++ rest /\ preamble_of pre txt /\ parse_header_text txt = Ok hv
    /\ header_says hv d shape o /\ from_parts c d shape o = Panic.
Proof.
  unfold read_and_interpret. rewrite run_bind. split.
  - destruct (read_header_cases input) as [ (e & r & E) | (pre & txt & hv & r & H1 & H2 & H3 & E) ]; rewrite E; cbn [then_]; [ discriminate | ].
    rewrite run_lift. cbn [fst]. intros H. apply interpret_panic_parts in H as (d & shape & o & Hs & Hp). now exists pre, txt, hv, d, shape, o, r.
  - intros (pre & txt & hv & d & shape & o & rest & -> & H2 & H3 & H4 & H5). rewrite (read_header_run _ _ _ _ H2 H3). cbn [then_]. rewrite run_lift.
    cbn [fst]. now rewrite (interpret_parts c hv d shape o H4).
Qed.

Lemma strip_newline_sub bs : Forall (fun b => b < 256) bs -> Forall (fun b => b < 256) (strip_newline bs).
Proof.
  intros H. unfold strip_newline. destruct (rev bs) as [ | c r ] eqn:E; auto. destruct (c =? 10); auto.
  assert (Forall (fun b => b < 256) (rev bs)) as Hr by (now apply Forall_rev). rewrite E in Hr. inversion Hr; subst. now apply Forall_rev.
Qed.

Lemma parse_header_text_strings bs hv : Forall (fun b => b < 256) bs -> parse_header_text bs = Ok hv -> strings_ok hv.
Proof.
  intros Hb. unfold parse_header_text. destruct (from_utf8 (strip_newline bs)) as [ t | ] eqn:E; [ | discriminate ].
  destruct (parse_literal t) as [ v | ] eqn:Ep; [ | discriminate ]. intros [= <-].
  apply (from_utf8_sound_aux _ _ _ (Nat.le_refl _)) in E as (Hs & _); [ | now apply strip_newline_sub ].
  eapply parse_literal_scalars; eauto. intros ch Hc. unfold scalars in Hs. rewrite Forall_forall in Hs. auto.
Qed.

Lemma header_says_wf hv d shape o : header_says hv d shape o -> strings_ok hv -> wf_dtype d /\ top_level d /\ Forall (fun n => n < 2 ^ 64) shape.
Proof.
  intros (pairs & dv & sv & b & -> & _ & (l1 & l2 & -> & _) & H2 & _ & H4 & _) Hs.
  apply shape_value_bound in H4. apply (proj1 describes_wf) in H2 as (? & ?); [ auto | ].
  intros s Hin. apply Hs. cbn [strings_of]. apply in_flat_map. exists (VString (lit "descr"), dv). split; [ apply in_app_iff; right; now left | ].
  apply in_app_iff. now right.
Qed.

(** Every header read from bytes is well formed. *)
Lemma read_wf c input h rest : Forall (fun b => b < 256) input -> run (read_and_interpret c) input = (Ok h, rest) ->
  wf_dtype (h_dtype h) /\ top_level (h_dtype h) /\ Forall (fun n => n < 2 ^ 64) (h_shape h).
Proof.
  intros Hb H. apply preamble_exact in H as (pre & txt & hv & d & shape & o & -> & (a & len & -> & _) & Ht & Hs & Hp).
  apply from_parts_ok in Hp as (-> & -> & _). eapply header_says_wf; eauto. eapply parse_header_text_strings; [ | exact Ht ].
  rewrite Forall_forall in *. intros x Hx. apply Hb. rewrite in_app_iff. left. right. rewrite !in_app_iff. auto 6.
Qed.

Lemma dtype_parse_wf src d : dtype_parse src = Ok d -> Forall (fun c => is_scalar c = true) src -> wf_dtype d /\ top_level d.
Proof.
  intros H Hs. unfold dtype_parse in H. apply bind_ok in H as (v & Hv & H). apply descr_exact in H. apply (proj1 describes_wf) in H; auto.
  eapply parse_header_text_strings; [ | exact Hv ]. now apply utf8_bytes.
Qed.

(** * Consequences for dictionaries *)
Lemma header_says_perm pairs pairs' d shape o : Permutation pairs pairs' -> NoDup (map fst pairs) ->
  header_says (VDict pairs) d shape o -> header_says (VDict pairs') d shape o.
Proof.
  intros Hp Hn (p & dv & sv & b & [= <-] & Hall & H1 & H2 & H3 & H4 & H5 & ->).
  assert (Hn' : NoDup (map fst pairs')) by (eapply Permutation_NoDup; [ | exact Hn ]; now apply Permutation_map).
  assert (L : forall k v, last_value k pairs v -> last_value k pairs' v).
  { intros k v (l1 & l2 & -> & _). assert (Hin : In (VString k, v) pairs') by (eapply Permutation_in; [ exact Hp | apply in_app_iff; right; now left ]).
    apply in_split in Hin as (m1 & m2 & ->). exists m1, m2. split; auto. rewrite map_app in Hn'. cbn [map fst] in Hn'. apply NoDup_remove_2 in Hn'.
    intros H. apply Hn'. apply in_app_iff. now right. }
  exists pairs', dv, sv, b. split; auto. split; [ eapply Permutation_Forall; eauto | ]. repeat (split; auto).
Qed.

Lemma result_eq c hv hv' : (forall d shape o, header_says hv d shape o <-> header_says hv' d shape o) ->
  (forall h, interpret_header c hv = Ok h <-> interpret_header c hv' = Ok h).
Proof.
  intros H h. rewrite !interpret_ok. split; intros (d & shape & o & Hs & Hp); exists d, shape, o; split; auto; now apply H.
Qed.

Lemma interpret_perm c pairs pairs' : Permutation pairs pairs' -> NoDup (map fst pairs) ->
  forall h, interpret_header c (VDict pairs) = Ok h <-> interpret_header c (VDict pairs') = Ok h.
Proof.
  intros Hp Hn. apply result_eq. intros d shape o. split; apply header_says_perm; auto; [ now apply Permutation_sym | ].
  eapply Permutation_NoDup; [ | exact Hn ]. now apply Permutation_map.
Qed.

Lemma last_value_insert l1 l2 k0 v0 k v : k <> k0 -> last_value k (l1 ++ (VString k0, v0) :: l2) v <-> last_value k (l1 ++ l2) v.
Proof.
  intros Hk. split.
  - intros (m1 & m2 & E & Hn). apply app_eq_app in E as (l & [ (-> & E) | (-> & E) ]).
    + destruct l as [ | (a, b) l ]; cbn [app] in E.
      * injection E as E _ _. congruence.
      * injection E as <- <- ->. exists m1, (l ++ l2). rewrite <- app_assoc. split; auto. rewrite map_app in *. cbn [map fst] in Hn. intros H. apply Hn.
        apply in_app_iff in H as [ H | H ]; apply in_app_iff; [ now left | right; now right ].
    + destruct l as [ | (a, b) l ]; cbn [app] in E.
      * injection E as E _ _. congruence.
      * injection E as <- <- ->. exists (l1 ++ l), m2. now rewrite <- app_assoc.
  - intros (m1 & m2 & E & Hn). apply app_eq_app in E as (l & [ (-> & E) | (-> & E) ]).
    + destruct l as [ | p l ]; cbn [app] in E.
      * subst l2. rewrite app_nil_r. exists (m1 ++ [(VString k0, v0)]), m2. now rewrite <- app_assoc.
      * injection E as <- ->. exists m1, (l ++ (VString k0, v0) :: l2). rewrite <- app_assoc. split; auto. rewrite map_app in *. cbn [map fst]. intros H.
        apply in_app_iff in H as [ H | [ H | H ] ]; [ apply Hn, in_app_iff; now left | congruence | apply Hn, in_app_iff; now right ].
    + subst l2. exists (l1 ++ (VString k0, v0) :: l), m2. split; auto. now rewrite <- app_assoc.
Qed.

Definition known_key (k : text) : Prop := k = lit "descr" \/ k = lit "fortran_order" \/ k = lit "shape".

Lemma interpret_extra c l1 l2 k v : ~ known_key k ->
  forall h, interpret_header c (VDict (l1 ++ (VString k, v) :: l2)) = Ok h <-> interpret_header c (VDict (l1 ++ l2)) = Ok h.
Proof.
  intros Hk. apply result_eq. intros d shape o.
  assert (L : forall key w, known_key key -> last_value key (l1 ++ (VString k, v) :: l2) w <-> last_value key (l1 ++ l2) w).
  { intros key w Hkey. apply last_value_insert. congruence. }
  assert (F : Forall (fun p => exists s, fst p = VString s) (l1 ++ (VString k, v) :: l2) <-> Forall (fun p => exists s, fst p = VString s) (l1 ++ l2)).
  { rewrite !Forall_app, Forall_cons_iff. cbn. intuition eauto. }
  unfold header_says. split; intros (p & dv & sv & b & [= <-] & Hall & H1 & H2 & H3 & H4 & H5 & ->);
    eexists; exists dv, sv, b; (split; [ reflexivity | ]); (split; [ now apply F | ]);
    (split; [ apply L; [ now left | exact H1 ] | ]); (split; [ exact H2 | ]); (split; [ apply L; [ now right; right | exact H3 ] | ]);
    (split; [ exact H4 | ]); (split; [ apply L; [ now right; left | exact H5 ] | ]); reflexivity.
Qed.

Lemma interpret_duplicate c l1 l2 l3 k v w :
  forall h, interpret_header c (VDict (l1 ++ (VString k, v) :: l2 ++ (VString k, w) :: l3)) = Ok h
        <-> interpret_header c (VDict (l1 ++ l2 ++ (VString k, w) :: l3)) = Ok h.
Proof.
  apply result_eq. intros d shape o.
  assert (L : forall key x, last_value key (l1 ++ (VString k, v) :: l2 ++ (VString k, w) :: l3) x <-> last_value key (l1 ++ l2 ++ (VString k, w) :: l3) x).
  { intros key x. destruct (list_eq_dec N.eq_dec key k) as [ -> | Hne ]; [ | now apply last_value_insert ].
    assert (G : forall m, last_value k (m ++ (VString k, w) :: l3) x <-> last_value k ((VString k, w) :: l3) x).
    { clear. intros m. split.
      - intros (m1 & m2 & E & Hn). apply app_eq_app in E as (l & [ (-> & E) | (-> & E) ]).
        + destruct l as [ | p l ]; cbn [app] in E.
          * injection E as -> ->. now exists [], l3.
          * injection E as <- ->. exfalso. apply Hn. rewrite map_app. apply in_app_iff. right. now left.
        + destruct l as [ | p l ]; cbn [app] in E.
          * injection E as -> ->. now exists [], m2.
          * injection E as <- ->. now exists ((VString k, w) :: l), m2.
      - intros (m1 & m2 & -> & Hn). exists (m ++ m1), m2. split; auto. now rewrite <- app_assoc. }
    rewrite (app_assoc l1 l2). rewrite G. replace (l1 ++ (VString k, v) :: l2 ++ (VString k, w) :: l3) with ((l1 ++ (VString k, v) :: l2) ++ (VString k, w) :: l3) by now rewrite <- app_assoc.
    now rewrite G. }
  assert (F : Forall (fun p => exists s, fst p = VString s) (l1 ++ (VString k, v) :: l2 ++ (VString k, w) :: l3) <-> Forall (fun p => exists s, fst p = VString s) (l1 ++ l2 ++ (VString k, w) :: l3)).
  { rewrite !Forall_app, Forall_cons_iff, Forall_app. assert (exists s, fst (VString k, v) = VString s) by (cbn; eauto). tauto. }
  unfold header_says. split; intros (p & dv & sv & b & [= <-] & Hall & H1 & H2 & H3 & H4 & H5 & ->);
    eexists; exists dv, sv, b; (split; [ reflexivity | ]); (split; [ now apply F | ]);
    (split; [ apply L; exact H1 | ]); (split; [ exact H2 | ]); (split; [ apply L; exact H3 | ]);
    (split; [ exact H4 | ]); (split; [ apply L; exact H5 | ]); reflexivity.
Qed.

(** * Allocating the text buffer *)
Lemma pre_header_run input : match run read_pre_header input with
  | (Ok (p, n), rest) => announces input n
  | (Err _, _) => forall n, ~ announces input n
  | (Panic, _) => False
  end.
Proof.
  assert (Hrun : forall n, announces input n -> exists p rest, run read_pre_header input = (Ok (p, n), rest)).
  { intros n (a & len & more & -> & Ha & Hlen & Hle).
    assert (exists props, get_version_props (a, 0) = Some props /\ (if vp_u32 props then 4 else 2) = lenN len) as (p & Hp & Hnl).
    { rewrite Hlen. destruct Ha as [ -> | [ -> | -> ] ]; eexists; split; reflexivity. }
    exists p, more. change (0x93 :: lit "NUMPY" ++ [a; 0] ++ len ++ more) with (magic ++ [a; 0] ++ len ++ more).
    unfold read_pre_header, read_magic_and_version. rewrite run_bind. set (R := len ++ more).
    cbn [run]. replace (8 <=? lenN (magic ++ [a; 0] ++ R)) with true by (rewrite app_assoc, lenN_app; change (lenN (magic ++ [a; 0])) with 8; lia).
    rewrite (app_assoc magic [a; 0] R), takeN_app, dropN_app by reflexivity.
    change (eqb_list (takeN 6 (magic ++ [a; 0])) magic) with true. cbn [run then_ nth magic lit app].
    rewrite Hp. rewrite run_bind, Hnl. unfold R. rewrite run_read_exact by reflexivity. cbn [then_ run]. rewrite <- little_endian_le, Hle. reflexivity. }
  destruct (run read_pre_header input) as ([ (p, n) | e | ], rest) eqn:E.
  2:{ intros n Hn. apply Hrun in Hn as (p & r & H). discriminate. }
  - unfold read_pre_header, read_magic_and_version in E. rewrite run_bind in E. cbn [run] in E.
    destruct (N.leb_spec 8 (lenN input)) as [ H8 | H8 ]; [ | discriminate ].
    destruct (eqb_list (takeN 6 (takeN 8 input)) magic) eqn:Em; [ | discriminate ]. cbn [run then_] in E.
    apply magic_split in Em; [ | rewrite lenN_takeN; lia ].
    set (a := nth 6 (takeN 8 input) 0) in *. set (b := nth 7 (takeN 8 input) 0) in *. clearbody a b.
    destruct (get_version_props (a, b)) as [ q | ] eqn:Ev; [ | discriminate ].
    assert (Hv : b = 0 /\ (a = 1 \/ a = 2 \/ a = 3) /\ (if a =? 1 then 2 else 4) = (if vp_u32 q then 4 else 2)).
    { unfold get_version_props in Ev.
      destruct (N.eqb_spec a 1); destruct (N.eqb_spec b 0); cbn [andb] in Ev;
      destruct (N.eqb_spec a 2); cbn [andb] in Ev; destruct (N.eqb_spec a 3); cbn [andb] in Ev; try discriminate;
      injection Ev as <-; cbn; auto. }
    destruct Hv as (Hb & Ha & Hlen). rewrite run_bind in E. unfold read_exact in E. cbn [run] in E.
    set (nl := if vp_u32 q then 4 else 2) in *. set (r1 := dropN 8 input) in *.
    destruct (N.leb_spec nl (lenN r1)) as [ Hn | Hn ]; [ | discriminate ]. cbn [then_ run] in E.
    apply pair_inj in E as (E & _). apply Ok_inj in E. apply pair_inj in E as (_ & <-).
    exists a, (takeN nl r1), (dropN nl r1). split; [ | split; [ auto | split; [ rewrite lenN_takeN; lia | now rewrite little_endian_le ] ] ].
    rewrite <- (takeN_dropN 8 input) at 1. rewrite Em, Hb, takeN_dropN. reflexivity.
  - unfold read_pre_header, read_magic_and_version in E. rewrite run_bind in E. cbn [run] in E.
    destruct (8 <=? lenN input); [ | discriminate ]. destruct (eqb_list _ magic); [ | discriminate ]. cbn [run then_] in E.
    destruct (get_version_props _) as [ q | ]; [ | discriminate ]. rewrite run_bind in E. unfold read_exact in E. cbn [run] in E.
    destruct (_ <=? _); discriminate.
Qed.
Lemma half_below m n : m / 2 < n <-> m < 2 * n.
Proof. split; intros H; pose proof (N.div_mod m 2 ltac:(lia)); pose proof (N.mod_lt m 2 ltac:(lia)); lia. Qed.
Lemma alloc_same c input : (forall n, announces input n -> 2 * n <= c_usize_max c) -> run (read_and_interpret_alloc c) input = run (read_and_interpret c) input.
Proof.
  intros H. unfold read_and_interpret_alloc, read_and_interpret, read_header_alloc, read_header. rewrite !run_bind. f_equal.
  pose proof (pre_header_run input) as P. destruct (run read_pre_header input) as ([ (p, n) | e | ], rest); cbn [then_]; try reflexivity.
  cbn [snd]. rewrite !run_bind. unfold read_vec, isize_max. replace (c_usize_max c / 2 <? n) with false; [ reflexivity | ].
  symmetry. apply N.ltb_ge. pose proof (half_below (c_usize_max c) n). specialize (H n P). lia.
Qed.
Lemma alloc_panics c input n : announces input n -> c_usize_max c < 2 * n -> fst (run (read_and_interpret_alloc c) input) = Panic.
Proof.
  intros Ha H. unfold read_and_interpret_alloc, read_header_alloc. rewrite !run_bind.
  pose proof (pre_header_run input) as P. destruct (run read_pre_header input) as ([ (p, m) | e | ], rest); cbn [then_]; [ | now apply P in Ha | reflexivity ].
  assert (m = n) as ->.
  { destruct P as (a & len & more & E & _ & L & <-), Ha as (a' & len' & more' & E' & _ & L' & <-). rewrite E in E'. injection E' as <- E'.
    assert (X : len = len') by (assert (Y : takeN (lenN len) (len ++ more) = takeN (lenN len) (len' ++ more')) by congruence; rewrite takeN_app in Y by reflexivity; rewrite L, <- L', takeN_app in Y by reflexivity; exact Y).
    now rewrite X. }
  cbn [snd]. rewrite run_bind. unfold read_vec, isize_max. apply half_below in H. apply N.ltb_lt in H as ->. reflexivity.
Qed.
Lemma announced_32 input n : Forall (fun b => b < 256) input -> announces input n -> n < 2 ^ 32.
Proof.
  intros Hb (a & len & more & -> & Ha & L & <-).
  assert (B : Forall (fun b => b < 256) len).
  { change (0x93 :: lit "NUMPY" ++ [a; 0] ++ len ++ more) with ((magic ++ [a; 0]) ++ len ++ more) in Hb. apply Forall_app in Hb as (_ & Hb). now apply Forall_app in Hb. }
  rewrite little_endian_le. apply le_value_bound in B. rewrite L in B. destruct (a =? 1); change (2 ^ 32) with 4294967296; [ change (256 ^ 2) with 65536 in B | change (256 ^ 4) with 4294967296 in B ]; lia.
Qed.
Lemma alloc_64 c input : Forall (fun b => b < 256) input -> c_usize_max c + 1 = 2 ^ 64 -> run (read_and_interpret_alloc c) input = run (read_and_interpret c) input.
Proof.
  intros Hb Hc. apply alloc_same. intros n Hn. apply announced_32 in Hn; [ | auto ]. change (2 ^ 64) with 18446744073709551616 in Hc. change (2 ^ 32) with 4294967296 in Hn. lia.
Qed.
