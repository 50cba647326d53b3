(** The printer writes what S_DText.v says. *)
From Verif Require Import M_Base M_Text M_TypeStr M_Header M_Read S_Text S_TypeStr S_DType S_Header S_DText P_Base P_Text P_TypeStr T_Text.
Require Import ZifyBool ZifyNat ZifyN.
Open Scope N_scope.

Lemma quoted_eq s : py_str_lit s = quoted s.
Proof.
  unfold py_str_lit, quoted, replace_char. f_equal. f_equal. induction s as [ | c s IH ]; [ reflexivity | ]. cbn [flat_map]. unfold escaped at 1.
  destruct (N.eqb_spec c 92) as [ -> | ]; [ cbn [app flat_map N.eqb Pos.eqb]; now rewrite IH | ].
  cbn [app flat_map]. destruct (N.eqb_spec c 39) as [ -> | ]; [ cbn [app flat_map N.eqb Pos.eqb]; now rewrite IH | ].
  cbn [app flat_map]. destruct (N.eqb_spec c 13) as [ -> | ]; [ cbn [app flat_map]; now rewrite IH | ].
  cbn [app flat_map]. destruct (N.eqb_spec c 10) as [ -> | ]; [ cbn [app flat_map]; now rewrite IH | ]. cbn [app]. now rewrite IH.
Qed.
Lemma listed_dec sep l : listed sep l (flat_map (fun n => dec n ++ sep) l).
Proof. induction l as [ | n l IH ]; cbn [flat_map]; [ constructor | ]. rewrite <- app_assoc. constructor; [ apply dec_shortest | auto ]. Qed.
Lemma listed_unique sep l t : listed sep l t -> t = flat_map (fun n => dec n ++ sep) l.
Proof. induction 1; cbn [flat_map]; [ reflexivity | ]. rewrite <- app_assoc, <- IHlisted. f_equal. now apply shortest_unique. Qed.
Lemma shape_str_flat l : shape_str l = flat_map (fun n => dec n ++ lit ",") l.
Proof. induction l as [ | n l IH ]; cbn [shape_str flat_map]; [ reflexivity | ]. now rewrite IH, <- app_assoc. Qed.

(** Canonical spellings. *)
Lemma canonical_digits m c ds unit : canonical (m :: c :: ds ++ unit) -> numeral ds (positional ds) -> (unit = [] \/ exists u, unit = lit "[" ++ u) -> shortest_numeral ds (positional ds).
Proof.
  intros (_ & Hz) (Hne & Hd & _) Hu. split; [ now apply Forall_forall | ]. split; [ reflexivity | ].
  destruct ds as [ | d [ | d' ds ] ]; [ congruence | | ].
  - destruct (N.eq_dec d 48) as [ -> | ]; [ now left | right; exists d, []; auto ].
  - right. exists d, (d' :: ds). split; auto. intros ->. apply (Hz m c d' (ds ++ unit)); [ reflexivity | ]. apply Hd. right. now left.
Qed.
Lemma canonical_unique s t : spells s t -> canonical s -> s = type_str_display t.
Proof.
  intros (mark & code & sz & unit & -> & Hm & Hc & Hs & Hu & Hl) Hcan.
  destruct (mark_table_one _ _ Hm) as (m & Em). destruct (code_table_one _ _ Hc) as (c & Ec). rewrite Em, Ec in *. cbn [app] in *.
  assert (Hunit : unit = match ts_units t with Some u => lit "[" ++ time_units_to_str u ++ lit "]" | None => [] end).
  { destruct (ts_units t) as [ u | ]; [ | exact Hu ]. destruct Hu as (name & Hin & ->). f_equal. f_equal.
    cbn in Hin. repeat (destruct Hin as [ [= <- <-] | Hin ]; [ reflexivity | ]). destruct Hin. }
  assert (Hmark : [m] = endianness_to_str (ts_endianness t)).
  { rewrite <- Em. clear - Hm. destruct (ts_endianness t); cbn in Hm; repeat (destruct Hm as [ Hm | Hm ]; [ first [ discriminate | injection Hm as <-; reflexivity ] | ]); destruct Hm. }
  assert (Hcode : [c] = type_char_to_str (ts_char t)).
  { assert (c <> chr "a") as Ha by (intros ->; apply (proj1 Hcan m (sz ++ unit)); reflexivity). rewrite <- Ec.
    clear - Hc Ha Ec. destruct (ts_char t); cbn in Hc;
      repeat (destruct Hc as [ Hc | Hc ]; [ first [ discriminate | injection Hc as <-; first [ reflexivity | exfalso; apply Ha; injection Ec as <-; reflexivity ] ] | ]); destruct Hc. }
  unfold type_str_display. rewrite <- Hmark, <- Hcode, <- Hunit. cbn [app]. f_equal. f_equal. f_equal.
  unfold ts_pickled. destruct (ts_char t); try exact Hs;
    (pose proof Hs as (_ & _ & Hv); rewrite <- Hv in Hs |- *; apply shortest_unique; eapply canonical_digits; eauto;
     destruct (ts_units t); subst unit; [ right; eexists; reflexivity | now left ]).
Qed.

(** The whole dtype. *)
Scheme dtype_text_ind2 := Minimality for dtype_text Sort Prop with fields_text_ind2 := Minimality for fields_text Sort Prop.
Combined Scheme dtype_text_all from dtype_text_ind2, fields_text_ind2.

Definition field_descr (name : text) (ty : dtype) : text :=
  match ty with
  | DArray _ _ => lit "(" ++ py_str_lit name ++ lit ", " ++ snd (descr_parts ty) ++ lit ", (" ++ shape_str (fst (descr_parts ty)) ++ lit ")), "
  | _ => lit "(" ++ py_str_lit name ++ lit ", " ++ snd (descr_parts ty) ++ lit "), "
  end.
Definition fields_descr (fs : list (text * dtype)) : text := flat_map (fun f => field_descr (fst f) (snd f)) fs.
Lemma descr_parts_record fs : descr_parts (DRecord fs) = ([], lit "[" ++ fields_descr fs ++ lit "]").
Proof.
  cbn [descr_parts]. f_equal. f_equal. f_equal. induction fs as [ | (name, ty) fs IH ]; [ reflexivity | ]. unfold fields_descr in *. cbn [flat_map fst snd].
  rewrite <- IH. reflexivity.
Qed.
Lemma descr_parts_wrap shape d : descr_parts (fold_right DArray d shape) = (shape ++ fst (descr_parts d), snd (descr_parts d)).
Proof. induction shape as [ | n s IH ]; cbn [fold_right app]; [ now destruct (descr_parts d) | ]. cbn [descr_parts]. rewrite IH. reflexivity. Qed.
Lemma descr_parts_top d : top_level d -> fst (descr_parts d) = [].
Proof. destruct d; cbn; tauto. Qed.
Lemma dtype_text_top d t : dtype_text d t -> top_level d.
Proof. destruct 1; exact I. Qed.
Lemma descr_top d : top_level d -> descr d = snd (descr_parts d).
Proof. destruct d; [ reflexivity | intros [] | reflexivity ]. Qed.

Lemma text_unique : (forall d t, dtype_text d t -> t = snd (descr_parts d)) /\ (forall fs t, fields_text fs t -> t = fields_descr fs).
Proof.
  apply dtype_text_all.
  - intros t s Hs Hc. cbn [descr_parts snd]. now rewrite (canonical_unique s t).
  - intros fs body _ ->. now rewrite descr_parts_record.
  - reflexivity.
  - intros name ty t fs rest H1 -> _ ->. unfold fields_descr at 2. cbn [flat_map fst snd]. unfold field_descr. rewrite <- quoted_eq.
    apply dtype_text_top in H1. destruct ty; [ now rewrite <- !app_assoc | destruct H1 | now rewrite <- !app_assoc ].
  - intros name shape ty t sh fs rest Hne H1 -> Hl _ ->. unfold fields_descr at 2. cbn [flat_map fst snd]. unfold field_descr.
    destruct shape as [ | n shape ]; [ congruence | ]. rewrite (descr_parts_wrap (n :: shape)). cbn [fst snd]. rewrite (descr_parts_top _ (dtype_text_top _ _ H1)), app_nil_r.
    cbn [fold_right]. rewrite <- quoted_eq, shape_str_flat, <- (listed_unique _ _ _ Hl), <- !app_assoc. reflexivity.
Qed.

Lemma peel d : exists shape e, d = fold_right DArray e shape /\ top_level e.
Proof.
  induction d as [ t | n d IH | fs ].
  - now exists [], (DPlain t).
  - destruct IH as (s & e & -> & H). now exists (n :: s), e.
  - now exists [], (DRecord fs).
Qed.
Lemma wf_wrap shape e : wf_dtype (fold_right DArray e shape) -> wf_dtype e.
Proof. induction shape; cbn; tauto. Qed.

Fixpoint depth (d : dtype) : nat :=
  match d with
  | DPlain _ => 0
  | DArray _ i => S (depth i)
  | DRecord fs => S ((fix go (fs : list (text * dtype)) : nat := match fs with [] => 0 | (_, ty) :: fs' => Nat.max (depth ty) (go fs') end) fs)
  end%nat.
Lemma depth_wrap shape e : (depth e <= depth (fold_right DArray e shape))%nat.
Proof. induction shape; cbn [fold_right depth]; lia. Qed.
Lemma text_exists k : forall d, (depth d <= k)%nat -> wf_dtype d -> top_level d -> dtype_text d (snd (descr_parts d)).
Proof.
  induction k as [ | k IH ]; intros d Hk Hw Ht.
  - destruct d; [ | destruct Ht | cbn in Hk; lia ]. constructor; [ now apply display_spells | now apply display_canonical ].
  - destruct d as [ t | | fs ]; [ constructor; [ now apply display_spells | now apply display_canonical ] | destruct Ht | ].
    rewrite descr_parts_record. cbn [snd]. constructor. cbn [depth] in Hk. cbn [wf_dtype] in Hw. clear Ht.
    induction fs as [ | (name, ty) fs IHf ]; [ constructor | ]. destruct Hw as (_ & Hw & Hws). unfold fields_descr. cbn [flat_map fst snd].
    assert (fields_text fs (fields_descr fs)) as Hfs by (apply IHf; [ lia | exact Hws ]).
    destruct (peel ty) as (shape & e & -> & He). pose proof (wf_wrap _ _ Hw) as Hwe. pose proof (depth_wrap shape e) as Hd.
    assert (dtype_text e (snd (descr_parts e))) as Hte by (apply IH; auto; lia).
    unfold field_descr at 1. rewrite quoted_eq, descr_parts_wrap. cbn [fst snd]. rewrite (descr_parts_top e He), app_nil_r.
    destruct shape as [ | n shape ].
    + cbn [fold_right]. replace (match e with DArray _ _ => _ | _ => _ end) with (lit "(" ++ quoted name ++ lit ", " ++ snd (descr_parts e) ++ lit "), ").
      2: { destruct e; [ reflexivity | destruct He | reflexivity ]. }
      rewrite <- !app_assoc. now apply fields_single.
    + change (fold_right DArray e (n :: shape)) with (DArray n (fold_right DArray e shape)) at 2. cbv iota. rewrite <- !app_assoc.
      apply (fields_array name (n :: shape)); auto; [ discriminate | ]. rewrite shape_str_flat. apply listed_dec.
Qed.

Lemma dtype_text_exact d t : wf_dtype d -> dtype_text d t <-> top_level d /\ t = descr d.
Proof.
  intros Hw. split.
  - intros H. pose proof (dtype_text_top _ _ H) as Ht. split; auto. rewrite (descr_top d Ht). now apply text_unique.
  - intros (Ht & ->). rewrite (descr_top d Ht). now apply (text_exists (depth d)).
Qed.
Lemma dictionary_exact d o shape t : wf_dtype d -> dictionary d o shape t <-> top_level d /\ t = header_dict d o shape.
Proof.
  intros Hw. split.
  - intros [ dt sh Hd Hl ]. apply dtype_text_exact in Hd as (Ht & ->); auto. split; auto. unfold header_dict. now rewrite (listed_unique _ _ _ Hl).
  - intros (Ht & ->). unfold header_dict. constructor; [ now apply dtype_text_exact | apply listed_dec ].
Qed.

(** [descr] as the source has it (src/header.rs:58-81), with [extract_full_array_shape] as a function of its own. *)
Lemma descr_parts_extract d : descr_parts d = (fst (extract_full_array_shape d), descr (snd (extract_full_array_shape d))).
Proof.
  revert d. fix IH 1. intros [ t | n d | fs ]; [ reflexivity | | reflexivity ].
  change (descr_parts (DArray n d)) with (let '(s, e) := descr_parts d in (n :: s, e)). rewrite (IH d).
  change (extract_full_array_shape (DArray n d)) with (let '(s, e) := extract_full_array_shape d in (n :: s, e)). destruct (extract_full_array_shape d). reflexivity.
Qed.
Lemma descr_source d : descr d =
  match d with
  | DPlain t => lit "'" ++ type_str_display t ++ lit "'"
  | DRecord fields =>
    lit "[" ++ flat_map (fun f =>
      match snd f with
      | DArray _ _ =>
        let '(shape, elem_ty) := extract_full_array_shape (snd f) in
        lit "(" ++ py_str_lit (fst f) ++ lit ", " ++ descr elem_ty ++ lit ", (" ++ shape_str shape ++ lit ")), "
      | _ => lit "(" ++ py_str_lit (fst f) ++ lit ", " ++ descr (snd f) ++ lit "), "
      end) fields ++ lit "]"
  | DArray n inner => lit "<< array " ++ dec n ++ lit " of " ++ descr inner ++ lit " >>"
  end.
Proof.
  destruct d as [ t | n d | fs ]; try reflexivity. cbn [descr descr_parts snd]. f_equal. f_equal.
  induction fs as [ | (name, ty) fs IH ]; [ reflexivity | ]. cbn [flat_map fst snd]. rewrite IH. f_equal.
  destruct ty as [ t | n ty | fs' ]; [ reflexivity | | reflexivity ]. rewrite (descr_parts_extract (DArray n ty)). cbn [fst snd].
  destruct (extract_full_array_shape (DArray n ty)). reflexivity.
Qed.
