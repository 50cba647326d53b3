(** DTypes and their textual form. *)
From Verif Require Import M_Base M_Text M_TypeStr M_PyLit M_IO M_Header S_TypeStr S_DType P_Base P_Text P_TypeStr P_PyLit.
Open Scope N_scope.

(** Normal form of concatenations. *)
Ltac app_norm := repeat first [ rewrite <- app_assoc | progress cbn [lit app] ].
Ltac app_norm_in H := repeat first [ rewrite <- app_assoc in H | progress cbn [lit app] in H ].

(** Induction over DTypes including record fields. *)
Fixpoint dtype_rect' (P : dtype -> Prop)
  (HP : forall t, P (DPlain t)) (HA : forall n d, P d -> P (DArray n d))
  (HR : forall fs, Forall (fun f => P (snd f)) fs -> P (DRecord fs)) (d : dtype) : P d :=
  match d with
  | DPlain t => HP t
  | DArray n inner => HA n inner (dtype_rect' P HP HA HR inner)
  | DRecord fs =>
    HR fs ((fix go (fs : list (text * dtype)) : Forall (fun f => P (snd f)) fs :=
              match fs with
              | [] => Forall_nil _
              | f :: fs' => Forall_cons f (dtype_rect' P HP HA HR (snd f)) (go fs')
              end) fs)
  end.

Lemma wf_record fs : wf_dtype (DRecord fs) <-> Forall (fun f => scalars (fst f) /\ wf_dtype (snd f)) fs.
Proof.
  cbn. induction fs as [ | (n, t) fs IH ]; split; auto.
  - intros (H1 & H2 & H3). constructor; [ split; auto; now apply Forall_forall | now apply IH ].
  - intros H. apply Forall_cons_iff in H as ((H1 & H2) & H3). repeat split; auto; [ now apply Forall_forall | now apply IH ].
Qed.

(** The escaping done by four successive replacements is one pass. *)
Lemma py_str_lit_esc s : py_str_lit s = 39 :: flat_map esc s ++ [39].
Proof.
  unfold py_str_lit, replace_char. cbn [lit]. change (N_of_ascii "'") with 39. cbn [app]. f_equal. f_equal.
  induction s as [ | c s IH ]; auto.
  cbn [flat_map]. rewrite !flat_map_app, IH. f_equal. unfold esc.
  destruct (N.eqb_spec c 92) as [ -> | H1 ]; [ reflexivity | ].
  cbn [flat_map app]. destruct (N.eqb_spec c 39) as [ -> | H2 ]; [ reflexivity | ].
  cbn [flat_map app]. destruct (N.eqb_spec c 13) as [ -> | H3 ]; [ reflexivity | ].
  cbn [flat_map app]. destruct (N.eqb_spec c 10) as [ -> | H4 ]; reflexivity.
Qed.

(** * Characters of type strings *)
Lemma plain_check s : forallb (fun c => negb ((c =? 92) || (c =? 39) || (c =? 13) || (c =? 10))) s = true -> plain s.
Proof. intros H. rewrite forallb_forall in H. apply Forall_forall. intros c Hc. apply H in Hc. lia. Qed.
Lemma ascii_check s : forallb (fun c => c <? 128) s = true -> ascii_text s.
Proof. intros H. rewrite forallb_forall in H. apply Forall_forall. intros c Hc. apply H in Hc. lia. Qed.
Lemma plain_app a b : plain a -> plain b -> plain (a ++ b).
Proof. intros; now apply Forall_app. Qed.
Lemma dec_plain n : plain (dec n).
Proof. eapply Forall_impl; [ | apply dec_digits ]. intros c. cbn beta. unfold is_digit. lia. Qed.
Ltac plain_lit := first [ apply plain_check | apply ascii_check ]; reflexivity.

Lemma display_plain t : plain (type_str_display t).
Proof.
  unfold type_str_display. apply plain_app; [ | apply plain_app; [ | apply plain_app ] ].
  - destruct (ts_endianness t); plain_lit.
  - destruct (ts_char t); plain_lit.
  - destruct (ts_pickled t); [ constructor | apply dec_plain ].
  - destruct (ts_units t) as [ u | ]; [ | constructor ]. destruct u; plain_lit.
Qed.
Lemma display_ascii t : ascii_text (type_str_display t).
Proof.
  unfold type_str_display. apply ascii_app; [ | apply ascii_app; [ | apply ascii_app ] ].
  - destruct (ts_endianness t); plain_lit.
  - destruct (ts_char t); plain_lit.
  - destruct (ts_pickled t); [ constructor | apply dec_ascii ].
  - destruct (ts_units t) as [ u | ]; [ | constructor ]. destruct u; plain_lit.
Qed.

(** * The value a DType is printed as *)
Fixpoint value_parts (d : dtype) : list N * value :=
  match d with
  | DPlain t => ([], VString (type_str_display t))
  | DArray n inner => let '(s, e) := value_parts inner in (n :: s, e)
  | DRecord fields =>
    ([], VList ((fix go (fs : list (text * dtype)) : list value :=
       match fs with
       | [] => []
       | (name, ty) :: fs' =>
         match ty with
         | DArray _ _ => VTuple [VString name; snd (value_parts ty); VTuple (map (fun n => VInteger (Z.of_N n)) (fst (value_parts ty)))]
         | _ => VTuple [VString name; snd (value_parts ty)]
         end :: go fs'
       end) fields))
  end.

Definition field_text (f : text * dtype) : text :=
  match snd f with
  | DArray _ _ =>
    lit "(" ++ py_str_lit (fst f) ++ lit ", " ++ snd (descr_parts (snd f)) ++ lit ", (" ++ shape_str (fst (descr_parts (snd f))) ++ lit "))"
  | _ => lit "(" ++ py_str_lit (fst f) ++ lit ", " ++ snd (descr_parts (snd f)) ++ lit ")"
  end.
Definition field_value (f : text * dtype) : value :=
  match snd f with
  | DArray _ _ => VTuple [VString (fst f); snd (value_parts (snd f)); VTuple (map (fun n => VInteger (Z.of_N n)) (fst (value_parts (snd f))))]
  | _ => VTuple [VString (fst f); snd (value_parts (snd f))]
  end.

Lemma descr_parts_record fs :
  descr_parts (DRecord fs) = ([], 91 :: items_text [32] (map (fun f => (field_text f, field_value f)) fs) ++ [93]).
Proof.
  cbn [descr_parts]. f_equal. cbn [lit app]. f_equal. f_equal.
  induction fs as [ | (n, t) fs IH ]; auto.
  cbn [map items_text app]. rewrite <- IH. unfold field_text; cbn [fst snd].
  destruct t; app_norm; reflexivity.
Qed.
Lemma value_parts_record fs : value_parts (DRecord fs) = ([], VList (map field_value fs)).
Proof.
  cbn [value_parts]. f_equal. f_equal. induction fs as [ | (n, t) fs IH ]; auto.
  cbn [map]. rewrite IH. unfold field_value; cbn [fst snd]. destruct t; reflexivity.
Qed.

Lemma parts_shape d : fst (descr_parts d) = fst (value_parts d).
Proof.
  induction d using dtype_rect'; auto. cbn. destruct (descr_parts d), (value_parts d). cbn in *. now f_equal.
Qed.

Lemma shape_str_items l :
  shape_str l = items_text [] (map (fun n => (dec n, VInteger (Z.of_N n))) l).
Proof. induction l; auto. cbn [shape_str map items_text app]. rewrite IHl. reflexivity. Qed.

Lemma py_str_starter s : starter (py_str_lit s).
Proof. rewrite py_str_lit_esc. cbn. repeat split; lia. Qed.
Lemma py_str_prints s : prints (py_str_lit s) (VString s).
Proof. rewrite py_str_lit_esc. apply prints_string. Qed.

Lemma shape_prints l : prints (40 :: shape_str l ++ [41]) (VTuple (map (fun n => VInteger (Z.of_N n)) l)).
Proof.
  rewrite shape_str_items.
  replace (map (fun n => VInteger (Z.of_N n)) l) with (map snd (map (fun n => (dec n, VInteger (Z.of_N n))) l))
    by (rewrite map_map; reflexivity).
  apply prints_tuple; [ constructor | ]. intros T v Hin. apply in_map_iff in Hin as (n & [= <- <-] & _). apply dec_item.
Qed.

Lemma descr_parts_prints d : starter (snd (descr_parts d)) /\ prints (snd (descr_parts d)) (snd (value_parts d)).
Proof.
  induction d as [ t | n d IH | fs IH ] using dtype_rect'.
  - cbn [descr_parts value_parts snd]. split; [ cbn; repeat split; lia | ]. apply (prints_plain _ (display_plain t)).
  - cbn [descr_parts value_parts]. destruct (descr_parts d), (value_parts d). exact IH.
  - rewrite descr_parts_record, value_parts_record. cbn [snd]. split; [ cbn; repeat split; lia | ].
    replace (map field_value fs) with (map snd (map (fun f => (field_text f, field_value f)) fs)) by (rewrite map_map; reflexivity).
    apply prints_list; [ repeat constructor | ].
    intros T v Hin. apply in_map_iff in Hin as (f & [= <- <-] & Hin).
    rewrite Forall_forall in IH. specialize (IH f Hin). destruct IH as (Hs & Hp).
    destruct f as (name, ty). cbn [fst snd] in *.
    assert (Hf : starter (field_text (name, ty))) by (unfold field_text; destruct ty; cbn; repeat split; lia).
    apply prints_item; auto. unfold field_text, field_value; cbn [fst snd].
    assert (Hname : item (py_str_lit name) (VString name)) by (apply prints_item; [ apply py_str_starter | apply py_str_prints ]).
    pose proof (prints_tuple_last [32] (py_str_lit name) (VString name) [] (snd (descr_parts ty)) (snd (value_parts ty))) as P2.
    pose proof (prints_tuple_last [32] (py_str_lit name) (VString name) [(snd (descr_parts ty), snd (value_parts ty))]
                  (40 :: shape_str (fst (descr_parts ty)) ++ [41]) (VTuple (map (fun n => VInteger (Z.of_N n)) (fst (value_parts ty))))) as P3.
    assert (Hb : blanks [32]) by (repeat constructor).
    assert (A2 : prints (lit "(" ++ py_str_lit name ++ lit ", " ++ snd (descr_parts ty) ++ lit ")") (VTuple [VString name; snd (value_parts ty)])).
    { cbn [items_text map app] in P2. app_norm_in P2. app_norm. apply P2; auto. intros ? ? []. }
    assert (A3 : prints (lit "(" ++ py_str_lit name ++ lit ", " ++ snd (descr_parts ty) ++ lit ", (" ++ shape_str (fst (descr_parts ty)) ++ lit "))")
                 (VTuple [VString name; snd (value_parts ty); VTuple (map (fun n => VInteger (Z.of_N n)) (fst (value_parts ty)))])).
    { cbn [items_text map app snd] in P3. app_norm_in P3. app_norm. apply P3; auto.
      - intros ? ? [ [= <- <-] | [] ]. now apply prints_item.
      - cbn; repeat split; lia.
      - rewrite <- parts_shape. apply shape_prints. }
    destruct ty; auto.
Qed.

(** * Interpreting the value gives back the DType *)
Definition conv_field (e : value) : res (text * dtype) :=
  match e with
  | VList tup | VTuple tup =>
    match tup with
    | [n; d] =>
      match n with
      | VString name => let* ty := from_descr d in Ok (name, ty)
      | _ => Err (EData (lit "list entry must contain a string for id"))
      end
    | [n; d; s] =>
      match n with
      | VString name =>
        let* ty := from_descr d in
        let* shape := convert_value_to_shape s in
        Ok (name, wrap_arrays shape ty)
      | _ => Err (EData (lit "list entry must contain a string for id"))
      end
    | _ => Err (EData (lit "list entry must contain 2 or 3 items"))
    end
  | _ => Err (EData (lit "list must contain list or tuple"))
  end.
Lemma from_descr_list l : from_descr (VList l) = let* fs := mapM conv_field l in Ok (DRecord fs).
Proof.
  cbn [from_descr]. f_equal. induction l as [ | e l IH ]; auto. cbn [mapM]. rewrite IH. reflexivity.
Qed.

Lemma convert_shape_ok l : Forall (fun n => n < 2 ^ 64) l ->
  convert_value_to_shape (VTuple (map (fun n => VInteger (Z.of_N n)) l)) = Ok l.
Proof.
  cbn [convert_value_to_shape]. induction 1; auto. cbn [map mapM convert_value_to_shape_integer].
  replace (Z.of_N x <? 0)%Z with false by lia. replace (Z.of_N x <? 2 ^ 64)%Z with true by lia.
  cbn [bind]. rewrite IHForall. cbn [bind]. now rewrite N2Z.id.
Qed.

Lemma value_parts_convert d : wf_dtype d ->
  exists e, from_descr (snd (value_parts d)) = Ok e /\ wrap_arrays (fst (value_parts d)) e = d
            /\ Forall (fun n => n < 2 ^ 64) (fst (value_parts d)).
Proof.
  induction d as [ t | n d IH | fs IH ] using dtype_rect'; intros Hwf.
  - exists (DPlain t). cbn. split; [ | split; auto ].
    unfold convert_string_to_type_str. cbn in Hwf. now rewrite display_parse.
  - destruct Hwf as (Hn & Hwf). destruct (IH Hwf) as (e & H1 & H2 & H3). exists e.
    cbn [value_parts]. destruct (value_parts d) as (s, v). cbn [fst snd] in *. split; auto. split; [ cbn; now f_equal | auto ].
  - rewrite value_parts_record. cbn [fst snd]. exists (DRecord fs). split; [ | split; auto ].
    rewrite from_descr_list. apply wf_record in Hwf.
    assert (mapM conv_field (map field_value fs) = Ok fs) as ->; [ | reflexivity ].
    induction fs as [ | (name, ty) fs IHfs ]; auto.
    apply Forall_cons_iff in IH as (IHt & IH). apply Forall_cons_iff in Hwf as ((Hn & Hw) & Hwf).
    cbn [map mapM]. cbn [fst snd] in *. rewrite IHfs by auto.
    destruct (IHt Hw) as (e & H1 & H2 & H3).
    assert (conv_field (field_value (name, ty)) = Ok (name, ty)) as ->; [ | reflexivity ].
    unfold field_value; cbn [fst snd].
    destruct ty; cbn [conv_field]; rewrite H1; cbn [bind].
    + cbn [value_parts fst] in H2. cbn in H2. now subst.
    + rewrite convert_shape_ok by auto. cbn [bind]. now rewrite H2.
    + rewrite value_parts_record in H2. cbn in H2. now subst.
Qed.

Lemma descr_prints d : top_level d -> starter (descr d) /\ prints (descr d) (snd (value_parts d)).
Proof. destruct d; intros []; apply descr_parts_prints. Qed.

Lemma value_convert d : wf_dtype d -> top_level d -> from_descr (snd (value_parts d)) = Ok d.
Proof.
  intros Hw Ht. destruct (value_parts_convert d Hw) as (e & H1 & H2 & _). rewrite H1. f_equal.
  destruct d; [ exact H2 | destruct Ht | ]. rewrite value_parts_record in H2. exact H2.
Qed.

(** * Characters of descriptions *)
Lemma scalars_app a b : scalars a -> scalars b -> scalars (a ++ b).
Proof. intros; now apply Forall_app. Qed.
Lemma py_str_scalars s : scalars s -> scalars (py_str_lit s).
Proof.
  intros H. rewrite py_str_lit_esc. constructor; [ reflexivity | ]. apply scalars_app; [ | repeat constructor ].
  induction H; [ constructor | ]. cbn [flat_map]. apply scalars_app; auto. unfold esc.
  repeat match goal with |- context [if ?b then _ else _] => destruct b end; repeat constructor; auto.
Qed.
Lemma shape_str_ascii l : ascii_text (shape_str l).
Proof. induction l; [ constructor | ]. cbn [shape_str]. apply ascii_app; [ apply dec_ascii | ]. constructor; [ cbn; lia | auto ]. Qed.

Lemma descr_parts_scalars d : wf_dtype d -> scalars (snd (descr_parts d)).
Proof.
  induction d as [ t | n d IH | fs IH ] using dtype_rect'; intros Hwf.
  - cbn [descr_parts snd]. apply ascii_scalars. apply ascii_app; [ plain_lit | apply ascii_app; [ apply display_ascii | plain_lit ] ].
  - destruct Hwf as (_ & Hwf). cbn [descr_parts]. destruct (descr_parts d). now apply IH.
  - rewrite descr_parts_record. cbn [snd]. constructor; [ reflexivity | ]. apply scalars_app; [ | repeat constructor ].
    apply wf_record in Hwf. induction fs as [ | (name, ty) fs IHfs ]; [ constructor | ].
    apply Forall_cons_iff in IH as (IHt & IH). apply Forall_cons_iff in Hwf as ((Hn & Hw) & Hwf). cbn [fst snd] in *.
    cbn [map items_text]. apply scalars_app.
    + unfold field_text; cbn [fst snd].
      assert (L : forall x, ascii_text (lit x) -> scalars (lit x)) by (intros; now apply ascii_scalars).
      specialize (IHt Hw).
      destruct ty; repeat first [ now apply py_str_scalars | exact IHt | apply L; plain_lit
        | apply ascii_scalars, shape_str_ascii | apply scalars_app ].
    + constructor; [ reflexivity | ]. constructor; [ reflexivity | ]. now apply IHfs.
Qed.
Lemma descr_scalars d : top_level d -> wf_dtype d -> scalars (descr d).
Proof. destruct d; intros []; apply descr_parts_scalars. Qed.

Lemma descr_last d : top_level d -> exists s c, descr d = s ++ [c] /\ (c = 39 \/ c = 93).
Proof.
  destruct d; intros []; cbn [descr].
  - exists (lit "'" ++ type_str_display t), 39. split; auto. 
  - rewrite descr_parts_record. cbn [snd]. eexists (91 :: _), 93. split; [ | auto ]. reflexivity.
Qed.

Lemma strip_newline_other s c : c <> 10 -> strip_newline (s ++ [c]) = s ++ [c].
Proof.
  intros H. unfold strip_newline. rewrite rev_app_distr. cbn [rev app]. now replace (c =? 10) with false by lia.
Qed.
Lemma strip_newline_nl s : strip_newline (s ++ [10]) = s.
Proof. unfold strip_newline. rewrite rev_app_distr. cbn [rev app]. now rewrite N.eqb_refl, rev_involutive. Qed.

Lemma dtype_parse_descr d : wf_dtype d -> top_level d -> dtype_parse (descr d) = Ok d.
Proof.
  intros Hw Ht. unfold dtype_parse, parse_header_text.
  assert (strip_newline (utf8 (descr d)) = utf8 (descr d)) as ->.
  { destruct (descr_last d Ht) as (s & c & -> & Hc). rewrite utf8_app.
    replace (utf8 [c]) with [c] by (destruct Hc; subst; reflexivity). apply strip_newline_other. lia. }
  rewrite from_utf8_utf8 by (now apply descr_scalars).
  unfold parse_literal. destruct (descr_prints d Ht) as (Hs & Hp).
  pose proof (skip_ws_starter (descr d) [] Hs) as E. pose proof (Hp [] (2 * List.length (descr d) + 2)%nat I) as P.
  rewrite app_nil_r in E, P. rewrite E, P by lia. cbn [skip_ws bind]. now apply value_convert.
Qed.

(** [descr_parts] is the composition of the two Rust functions. *)
Lemma descr_parts_extract d :
  descr_parts d = (fst (extract_full_array_shape d), descr (snd (extract_full_array_shape d))).
Proof.
  induction d as [ t | n d IH | fs IH ] using dtype_rect'; try reflexivity.
  - cbn [descr_parts extract_full_array_shape]. rewrite IH. destruct (extract_full_array_shape d). reflexivity.
Qed.

(** Concrete DTypes are well-formed. *)
Ltac wf_case :=
  cbn;
  repeat match goal with
         | |- _ /\ _ => split
         | |- forall ch, _ -> _ => intros ch Hch; repeat (destruct Hch as [ <- | Hch ]; [ reflexivity | ]); destruct Hch
         | |- True => exact I
         | |- _ \/ _ => first [ left; solve [ wf_case ] | right; solve [ wf_case ] ]
         | |- _ = _ => reflexivity
         | |- _ <> _ => discriminate
         | |- _ < _ => reflexivity
         end.
