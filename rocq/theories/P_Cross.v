(** One file seen through different Rust types: proofs. *)
From Verif Require Import M_Base M_Text M_TypeStr M_IO M_Header M_Read M_Serialize M_DTypeErr M_NpyReader M_Write.
From Verif Require Import S_Text S_TypeStr S_DType S_Shape S_Header S_Elem S_Strings S_Reader S_Write S_Fault S_File S_Cross.
From Verif Require Import P_Base P_Text P_TypeStr P_IO P_Header P_Elem P_ElemT P_Sizes P_Codec P_Number P_Strings P_ReadOne P_Reader P_Fault P_Broken P_History P_Writer P_WriteFile P_Whole P_File P_Roomy P_Bytes P_Source P_SparseOut.
Require Import ZifyBool ZifyNat ZifyN.
Open Scope N_scope.

Definition rooms :=
  fix go (fs : list (text * rty)) (ds : list (text * dtype)) : Prop :=
    match fs, ds with
    | (_, t') :: fs', (_, d') :: ds' => room t' d' /\ go fs' ds'
    | _, _ => True
    end.
Lemma room_struct fs ds : room (RStruct fs) (DRecord ds) = rooms fs ds.
Proof. reflexivity. Qed.

(** * Scalars *)
(** The contents of an item of a string dtype. *)
Lemma item_content m t ts bs v : is_scalar_type t -> is_string_type t = true -> accepts m Reading t (DPlain ts) -> room t (DPlain ts) -> bytes_ok bs -> lenN bs = scalar_size ts ->
  decode t (DPlain ts) bs = Some v ->
  match ts_char ts with
  | TByteStr => byte_content v = Some (strip bs)
  | TRawData => byte_content v = Some bs
  | TUnicodeStr => unit_content v = Some (strip (utf32_units (ts_endianness ts) (ts_size ts) bs)) /\ Forall (fun u => u < 0x110000) (utf32_units (ts_endianness ts) (ts_size ts) bs)
  | _ => False
  end.
Proof.
  intros (Ha & Hs) Hstr Hacc Hroom Hb Hl Hd. unfold scalar_size in Hl.
  assert (U : forall n (us : list N), lenN us <= n -> takeN n us = us) by (intros; now apply takeN_all).
  assert (L : lenN (utf32_units (ts_endianness ts) (ts_size ts) bs) = ts_size ts) by (unfold utf32_units, lenN; rewrite map_length; pose proof (pieces_length (N.to_nat (ts_size ts)) 4 bs); lia).
  assert (S : forall us, forallb scalar_value us = true -> Forall (fun u => u < 0x110000) us).
  { intros us H. apply forallb_Forall in H. eapply Forall_impl; [ | exact H ]. intros a Hx. unfold scalar_value in Hx. lia. }
  apply (accepts_scalar _ _ _ _ (conj Ha Hs)) in Hacc as (ts' & E0 & Hacc). injection E0 as <-. destruct t; try discriminate Hstr; cbn [scalar_ok] in Hacc; cbn [decode] in Hd; cbn [room] in Hroom.
  - apply Some_inj in Hd as <-. destruct Hacc as [ Hc | Hc ]; rewrite Hc; reflexivity.
  - apply Some_inj in Hd as <-. destruct Hacc as (Hc & ->). rewrite Hc. reflexivity.
  - apply Some_inj in Hd as <-. destruct Hacc as [ (Hc & Hn) | Hc ]; rewrite Hc in *; cbn [byte_content].
    + subst n. replace (ts_size ts - lenN bs) with 0 by lia. cbn [repeatN]. now rewrite app_nil_r.
    + rewrite takeN_all by lia. reflexivity.
  - rewrite Hacc in *. destruct (forallb _ _) eqn:E; [ | discriminate ]. apply Some_inj in Hd as <-. cbn [unit_content]. split; [ reflexivity | ]. apply forallb_Forall in E. eapply Forall_impl; [ | exact E ]. intros a Hx; cbn beta in Hx; lia.
  - rewrite Hacc in *. destruct (forallb _ _) eqn:E; [ | discriminate ]. apply Some_inj in Hd as <-. cbn [unit_content]. split; [ reflexivity | ]. now apply S.
  - destruct Hacc as [ Hc | Hc ]; rewrite Hc in *.
    + destruct (from_utf8 (strip bs)) as [ s | ] eqn:E; [ | discriminate ]. apply Some_inj in Hd as <-. cbn [byte_content]. apply from_utf8_sound in E as (_ & E); [ | now apply Forall_strip ]. now rewrite <- E.
    + destruct (forallb _ _) eqn:E; [ | discriminate ]. apply Some_inj in Hd as <-. cbn [unit_content]. split; [ reflexivity | ]. now apply S.
  - rewrite Hacc in *. destruct (forallb _ _) eqn:E; [ | discriminate ]. apply Some_inj in Hd as <-. cbn [unit_content]. split; [ now rewrite U by lia | ]. apply forallb_Forall in E. eapply Forall_impl; [ | exact E ]. intros a Hx; cbn beta in Hx; lia.
  - rewrite Hacc in *. destruct (forallb _ _) eqn:E; [ | discriminate ]. apply Some_inj in Hd as <-. cbn [unit_content]. split; [ now rewrite U by lia | ]. now apply S.
  - destruct Hacc as [ Hc | (Hc & H) ]; [ | discriminate H ]. rewrite Hc in *.
    destruct (from_utf8 (strip bs)) as [ s | ] eqn:E; [ | discriminate ]. apply Some_inj in Hd as <-. cbn [byte_content]. apply from_utf8_sound in E as (_ & E); [ | now apply Forall_strip ].
    rewrite fit_all; [ now rewrite <- E | ]. change utf8_string with utf8. rewrite E. pose proof (lenN_strip bs). lia.
Qed.
(** What is written of a value is determined by its contents. *)
Lemma content_encoded m t ts v : is_scalar_type t -> is_string_type t = true -> accepts m Writing t (DPlain ts) -> has_type t v ->
  match ts_char ts with
  | TByteStr => exists x, byte_content v = Some x /\ encode t (DPlain ts) v = padded (ts_size ts) x
  | TRawData => exists x, byte_content v = Some x /\ encode t (DPlain ts) v = if lenN x =? ts_size ts then Some x else None
  | TUnicodeStr => exists us, unit_content v = Some us
      /\ encode t (DPlain ts) v = if forallb (fun u => u <? 0x110000) us then omap (utf32 (ts_endianness ts)) (padded (ts_size ts) us) else None
  | _ => False
  end.
Proof.
  intros Hsc Hstr Hacc Hv. apply (accepts_scalar _ _ _ _ Hsc) in Hacc as (ts' & E0 & Hacc). injection E0 as <-.
  assert (F : forall us, Forall (fun u => scalar_value u = true) us -> forallb (fun u => u <? 0x110000) us = true).
  { intros us H. apply forallb_forall. rewrite Forall_forall in H. intros x Hx. specialize (H x Hx). cbn beta in H. unfold scalar_value in H. lia. }
  destruct t; try discriminate Hstr; destruct v; try (now destruct Hv); cbn [scalar_ok] in Hacc; cbn [has_type] in Hv; cbn [encode byte_content unit_content].
  - destruct Hacc as [ Hc | Hc ]; rewrite Hc; eauto.
  - destruct Hacc as (Hc & ->). rewrite Hc. exists bs. split; [ reflexivity | ]. now replace (lenN bs =? ts_size ts) with true by lia.
  - destruct Hacc as [ (Hc & _) | Hc ]; rewrite Hc; eauto.
  - rewrite Hacc. eauto.
  - rewrite Hacc. exists us. rewrite F by auto. eauto.
  - destruct Hacc as [ Hc | Hc ]; rewrite Hc; [ eauto | ]. exists s. rewrite F by auto. eauto.
  - rewrite Hacc. eauto.
  - rewrite Hacc. exists us. rewrite F by tauto. eauto.
  - destruct Hacc as [ Hc | (Hc & _) ]; rewrite Hc; [ eauto | ]. exists s. rewrite F by tauto. eauto.
Qed.
(** Numbers have one type. *)
Lemma number_type dir dir' t t' code m : is_string_type t = false -> scalar_ok dir t code m -> scalar_ok dir' t' code m -> t = t'.
Proof.
  intros Hn H H'. destruct t as [ [ | ] w | w | | w | | | | | | | | | | | ]; try discriminate Hn; try (now destruct H); cbn [scalar_ok] in H;
    destruct t' as [ [ | ] w' | w' | | w' | | | | | | | | | | | ]; try (now destruct H'); cbn [scalar_ok] in H';
    repeat match goal with A : _ /\ _ |- _ => destruct A | A : _ \/ _ |- _ => destruct A end; subst; try discriminate; try reflexivity; f_equal;
    try (destruct w, w'; try reflexivity; try discriminate); congruence.
Qed.

(** * Reading *)
Lemma all_some_nil {A} (l : list (option A)) : all_some l = Some [] -> l = [].
Proof. destruct l as [ | x l ]; [ auto | ]. cbn [all_some]. destruct x; [ | discriminate ]. destruct (all_some l); discriminate. Qed.
Lemma reads_same t : forall t' m m' d bs v v', accepts m Reading t d -> accepts m' Reading t' d -> room t d -> room t' d -> bytes_ok bs -> lenN bs = size d ->
  decode t d bs = Some v -> decode t' d bs = Some v' -> same v v'.
Proof.
  induction t as [ t Ha Hs | n t IH | fs IH ] using rty_rect'; intros t' m m' d bs v v' Hacc Hacc' Hr Hr' Hb Hl Hd Hd'.
  - destruct (accepts_scalar _ _ _ _ (conj Ha Hs) Hacc) as (ts & -> & Hok).
    assert (Hsc' : is_scalar_type t') by (split; intros; intros ->; destruct Hacc' as (Hacc' & _); destruct Hacc').
    destruct (accepts_scalar _ _ _ _ Hsc' Hacc') as (ts' & E & Hok'). injection E as <-.
    destruct (is_string_type t) eqn:Et.
    + destruct (is_string_type t') eqn:Et'.
      * cbn [size] in Hl. pose proof (item_content _ _ _ _ _ (conj Ha Hs) Et Hacc Hr Hb Hl Hd) as C. pose proof (item_content _ _ _ _ _ Hsc' Et' Hacc' Hr' Hb Hl Hd') as C'.
        destruct (ts_char ts); try contradiction; [ now apply (same_bytes _ _ (strip bs)) | destruct C as (C & _), C' as (C' & _); eapply same_units; eauto | now apply (same_bytes _ _ bs) ].
      * apply (number_type _ _ _ _ _ _ Et' Hok') in Hok. subst t'. congruence.
    + apply (number_type _ _ _ _ _ _ Et Hok) in Hok'. subst t'. rewrite Hd in Hd'. apply Some_inj in Hd' as <-. apply same_value.
  - apply accepts_array_inv in Hacc as (d' & -> & Hacc). destruct t' as [ | | | | | | | | | | | | | n' t' | ]; try (now destruct Hacc'). destruct Hacc' as (-> & Hacc').
    cbn [decode size room] in *. destruct (all_some (map (decode t d') _)) as [ l | ] eqn:E; [ | discriminate ]. apply Some_inj in Hd as <-.
    destruct (all_some (map (decode t' d') _)) as [ l' | ] eqn:E'; [ | discriminate ]. apply Some_inj in Hd' as <-. apply same_array.
    assert (Hl' : lenN bs = N.of_nat (N.to_nat n) * size d') by lia. clear Hl. revert bs l l' Hl' Hb E E'. induction (N.to_nat n) as [ | k IHk ]; intros bs l l' Hl Hb E E'.
    + injection E as <-. injection E' as <-. constructor.
    + cbn [pieces map all_some] in E, E'. destruct (decode t d' _) as [ x | ] eqn:Ex; [ | discriminate ]. destruct (all_some _) as [ xs | ] eqn:Exs in E; [ | discriminate ]. apply Some_inj in E as <-.
      destruct (decode t' d' _) as [ x' | ] eqn:Ex'; [ | discriminate ]. destruct (all_some _) as [ xs' | ] eqn:Exs' in E'; [ | discriminate ]. apply Some_inj in E' as <-.
      constructor.
      * apply (IH t' m m' d' (takeN (size d') bs)); auto; [ now apply Forall_takeN | rewrite lenN_takeN; lia ].
      * apply (IHk (dropN (size d') bs)); auto; [ rewrite lenN_dropN; lia | now apply Forall_dropN ].
  - apply accepts_struct_inv in Hacc as (ds & -> & Hacc). destruct t' as [ | | | | | | | | | | | | | | fs' ]; try (now destruct Hacc').
    rewrite accepts_struct in Hacc'. rewrite !room_struct in *. rewrite size_record in Hl. rewrite !decode_struct in *.
    destruct (decode_fields fs ds bs) as [ l | ] eqn:E; [ | discriminate ]. apply Some_inj in Hd as <-.
    destruct (decode_fields fs' ds bs) as [ l' | ] eqn:E'; [ | discriminate ]. apply Some_inj in Hd' as <-. apply same_struct.
    revert fs' ds bs l l' Hacc Hacc' Hr Hr' Hb Hl E E'. induction IH as [ | (name, t) fs Hf Hfs IHfs ]; intros [ | (name', t') fs' ] [ | (nm, d) ds ] bs l l' Hacc Hacc' Hr Hr' Hb Hl E E';
      try (now destruct Hacc); try (now destruct Hacc').
    + injection E as <-. injection E' as <-. constructor.
    + cbn [decode_fields] in E, E'. fold decode_fields in E, E'. destruct Hacc as (_ & Hacc & Haccs). destruct Hacc' as (_ & Hacc' & Haccs'). cbn [rooms] in Hr, Hr'. fold rooms in Hr, Hr'. destruct Hr as (Hr & Hrs), Hr' as (Hr' & Hrs').
      cbn [size_fields] in Hl. fold size_fields in Hl. destruct (decode t d _) as [ x | ] eqn:Ex; [ | discriminate ]. destruct (decode_fields fs ds _) as [ xs | ] eqn:Exs; [ | discriminate ]. apply Some_inj in E as <-.
      destruct (decode t' d _) as [ x' | ] eqn:Ex'; [ | discriminate ]. destruct (decode_fields fs' ds _) as [ xs' | ] eqn:Exs'; [ | discriminate ]. apply Some_inj in E' as <-.
      constructor.
      * apply (Hf t' m m' d (takeN (size d) bs)); auto; [ now apply Forall_takeN | rewrite lenN_takeN; lia ].
      * apply (IHfs fs' ds (dropN (size d) bs)); auto; [ now apply Forall_dropN | rewrite lenN_dropN; lia ].
Qed.

(** * Writing *)
Lemma same_byte_content v v' x y : same v v' -> byte_content v = Some x -> byte_content v' = Some y -> x = y.
Proof.
  intros [ v0 | v0 v0' bs H H' | v0 v0' us H H' | l l' H | l l' H ] Hx Hy; try congruence; try discriminate.
  destruct v0, v0'; cbn [byte_content unit_content] in *; try discriminate; congruence.
Qed.
Lemma text_typed t s : has_type t (XStr s) -> Forall (fun u => scalar_value u = true) s.
Proof. destruct t; cbn [has_type]; try contradiction; tauto. Qed.
Lemma utf8_one s s' : Forall (fun u => scalar_value u = true) s -> Forall (fun u => scalar_value u = true) s' -> utf8_string s = utf8_string s' -> s = s'.
Proof. intros H H' E. change utf8_string with utf8 in E. pose proof (from_utf8_utf8 s H) as A. pose proof (from_utf8_utf8 s' H') as A'. rewrite E in A. congruence. Qed.
Lemma same_unit_content t t' v v' x y : has_type t v -> has_type t' v' -> same v v' -> unit_content v = Some x -> unit_content v' = Some y -> x = y.
Proof.
  intros Hv Hv' HH Hx Hy. revert Hv Hv' Hx Hy. destruct HH as [ v0 | v0 v0' bs H H' | v0 v0' us H H' | l l' H | l l' H ]; intros Hv Hv' Hx Hy; try congruence; try discriminate.
  destruct v0, v0'; cbn [byte_content unit_content] in *; try discriminate. apply Some_inj in Hx as <-, Hy as <-. apply text_typed in Hv, Hv'. apply utf8_one; auto. congruence.
Qed.
Lemma padded_strip m l : lenN l = m -> padded m (strip l) = Some l.
Proof.
  intros H. apply padded_some. pose proof (lenN_strip l). split; [ lia | ]. destruct (strip_spec l) as (k & E). rewrite E at 1. f_equal. f_equal.
  assert (lenN l = lenN (strip l) + k) by (rewrite E at 1; now rewrite lenN_app, lenN_repeatN). lia.
Qed.
Lemma same_number t v v' : is_scalar_type t -> is_string_type t = false -> has_type t v -> same v v' -> v' = v.
Proof.
  intros (Ha & Hs) Ht Hv H. destruct t; try discriminate Ht; try (now destruct (Ha _ _ eq_refl)); try (now destruct (Hs _ eq_refl)); destruct v; try (now destruct Hv); inversion H; subst; try reflexivity; discriminate.
Qed.
Lemma number_back m t ts bs v : is_scalar_type t -> is_string_type t = false -> accepts m Reading t (DPlain ts) -> bytes_ok bs -> lenN bs = scalar_size ts ->
  decode t (DPlain ts) bs = Some v -> encode t (DPlain ts) v = Some bs.
Proof.
  intros (Ha & Hs) Ht Hacc Hb Hl Hd. destruct t; try discriminate Ht; try (now destruct (Ha _ _ eq_refl)); try (now destruct (Hs _ eq_refl)).
  3: { cbn [decode] in Hd. destruct bs as [ | [ | [ | | ] ] [ | ] ]; try discriminate; apply Some_inj in Hd as <-; reflexivity. }
  all: match goal with |- encode ?t _ _ = _ => destruct (numeric_total t m (DPlain ts) bs I Hacc Hl Hb) as (x & E & E') end; rewrite E in Hd; apply Some_inj in Hd as <-; exact E'.
Qed.
Lemma scalar_back m m' t t' ts bs v v' : is_scalar_type t -> accepts m Reading t (DPlain ts) -> room t (DPlain ts) -> accepts m' Writing t' (DPlain ts) -> has_type t' v' -> same v v' -> bytes_ok bs ->
  lenN bs = scalar_size ts -> decode t (DPlain ts) bs = Some v -> encode t' (DPlain ts) v' = Some bs.
Proof.
  intros Hsc Hacc Hr Hacc' Hv' Hsame Hb Hl Hd. pose proof (decode_typed t m (DPlain ts) bs v Hacc Hl Hb Hd) as Hv.
  assert (Hsc' : is_scalar_type t') by (split; intros; intros ->; destruct Hacc' as (Hacc' & _); destruct Hacc').
  destruct (accepts_scalar _ _ _ _ Hsc Hacc) as (ts' & E & Hok). injection E as <-. destruct (accepts_scalar _ _ _ _ Hsc' Hacc') as (ts' & E & Hok'). injection E as <-.
  destruct (is_string_type t) eqn:Et.
  - destruct (is_string_type t') eqn:Et'. 2: { apply (number_type _ _ _ _ _ _ Et' Hok') in Hok. subst t'. congruence. }
    pose proof (item_content _ _ _ _ _ Hsc Et Hacc Hr Hb Hl Hd) as C. pose proof (content_encoded _ _ _ _ Hsc' Et' Hacc' Hv') as C'. unfold scalar_size in Hl.
    destruct (ts_char ts); try contradiction.
    + destruct C' as (x & Hx & ->). rewrite <- (same_byte_content _ _ _ _ Hsame C Hx). now apply padded_strip.
    + destruct C as (C & CU). destruct C' as (us & Hus & He). rewrite <- (same_unit_content _ _ _ _ _ _ Hv Hv' Hsame C Hus) in He. rewrite He.
      replace (forallb _ _) with true. 2: { symmetry. apply forallb_forall. apply Forall_forall. apply Forall_strip. eapply Forall_impl; [ | exact CU ]. intros a Hx. cbn beta in Hx. lia. }
      rewrite padded_strip. 2: { unfold utf32_units, lenN. rewrite map_length. pose proof (pieces_length (N.to_nat (ts_size ts)) 4 bs). lia. }
      cbn [omap]. f_equal. symmetry. now apply (item_units (ts_endianness ts) (ts_size ts) bs).
    + destruct C' as (x & Hx & ->). rewrite <- (same_byte_content _ _ _ _ Hsame C Hx). now replace (lenN bs =? ts_size ts) with true by lia.
  - apply (number_type _ _ _ _ _ _ Et Hok) in Hok'. subst t'. apply (same_number t) in Hsame as ->; auto. now apply (number_back m).
Qed.
Lemma same_array_inv l v' : same (XSeq l) v' -> exists l', v' = XSeq l' /\ Forall2 same l l'.
Proof.
  intros H. inversion H; subst; try discriminate; [ | eauto ]. exists l. split; [ auto | ]. clear H. induction l; constructor; auto using same_value.
Qed.
Lemma same_struct_inv l v' : same (XRec l) v' -> exists l', v' = XRec l' /\ Forall2 same l l'.
Proof.
  intros H. inversion H; subst; try discriminate; [ | eauto ]. exists l. split; [ auto | ]. clear H. induction l; constructor; auto using same_value.
Qed.
Lemma item_back t : forall t' m m' d bs v v', accepts m Reading t d -> room t d -> accepts m' Writing t' d -> has_type t' v' -> same v v' -> bytes_ok bs -> lenN bs = size d ->
  decode t d bs = Some v -> encode t' d v' = Some bs.
Proof.
  induction t as [ t Ha Hs | n t IH | fs IH ] using rty_rect'; intros t' m m' d bs v v' Hacc Hr Hacc' Hv' Hsame Hb Hl Hd.
  - destruct (accepts_scalar _ _ _ _ (conj Ha Hs) Hacc) as (ts & -> & _). now apply (scalar_back m m' t t' ts bs v v').
  - apply accepts_array_inv in Hacc as (d' & -> & Hacc). destruct t' as [ | | | | | | | | | | | | | n' t' | ]; try (now destruct Hacc'). destruct Hacc' as (-> & Hacc').
    cbn [decode size room] in *. destruct (all_some (map (decode t d') _)) as [ l | ] eqn:E; [ | discriminate ]. apply Some_inj in Hd as <-.
    apply same_array_inv in Hsame as (l' & -> & Hsame). destruct Hv' as (_ & Hv'). rewrite encode_array.
    assert (Hl' : lenN bs = N.of_nat (N.to_nat n) * size d') by lia. clear Hl. revert bs l l' Hl' Hb E Hsame Hv'. induction (N.to_nat n) as [ | k IHk ]; intros bs l l' Hl Hb E Hsame Hv'.
    + injection E as <-. inversion Hsame; subst. cbn. f_equal. symmetry. apply lenN_0. lia.
    + cbn [pieces map all_some] in E. destruct (decode t d' _) as [ x | ] eqn:Ex; [ | discriminate ]. destruct (all_some _) as [ xs | ] eqn:Exs in E; [ | discriminate ]. apply Some_inj in E as <-.
      inversion Hsame as [ | ? x' ? xs' Hx Hxs ]; subst. inversion Hv' as [ | ? ? Hvx Hvxs ]; subst. cbn [encode_seq]. fold (encode_seq t' d').
      rewrite (IH t' m m' d' (takeN (size d') bs) x x'); auto; [ | now apply Forall_takeN | rewrite lenN_takeN; lia ].
      rewrite (IHk (dropN (size d') bs) xs xs'); auto; [ | rewrite lenN_dropN; lia | now apply Forall_dropN ]. f_equal. apply takeN_dropN.
  - apply accepts_struct_inv in Hacc as (ds & -> & Hacc). destruct t' as [ | | | | | | | | | | | | | | fs' ]; try (now destruct Hacc').
    rewrite accepts_struct in Hacc'. rewrite room_struct in *. rewrite size_record in Hl. rewrite decode_struct in *.
    destruct (decode_fields fs ds bs) as [ l | ] eqn:E; [ | discriminate ]. apply Some_inj in Hd as <-. apply same_struct_inv in Hsame as (l' & -> & Hsame). rewrite has_type_struct in Hv'. rewrite encode_struct.
    revert fs' ds bs l l' Hacc Hacc' Hr Hb Hl E Hsame Hv'. induction IH as [ | (name, t) fs Hf Hfs IHfs ]; intros [ | (name', t') fs' ] [ | (nm, d) ds ] bs l l' Hacc Hacc' Hr Hb Hl E Hsame Hv';
      try (now destruct Hacc); try (now destruct Hacc').
    + injection E as <-. inversion Hsame; subst. cbn. f_equal. symmetry. now apply lenN_0.
    + cbn [decode_fields] in E. fold decode_fields in E. destruct Hacc as (_ & Hacc & Haccs). destruct Hacc' as (_ & Hacc' & Haccs'). cbn [rooms] in Hr. fold rooms in Hr. destruct Hr as (Hr & Hrs).
      cbn [size_fields] in Hl. fold size_fields in Hl. destruct (decode t d _) as [ x | ] eqn:Ex; [ | discriminate ]. destruct (decode_fields fs ds _) as [ xs | ] eqn:Exs; [ | discriminate ]. apply Some_inj in E as <-.
      inversion Hsame as [ | ? x' ? xs' Hx Hxs ]; subst. cbn [has_types] in Hv'. fold has_types in Hv'. destruct Hv' as (Hvx & Hvxs). cbn [encode_fields]. fold encode_fields.
      rewrite (Hf t' m m' d (takeN (size d) bs) x x'); auto; [ | now apply Forall_takeN | rewrite lenN_takeN; lia ].
      rewrite (IHfs fs' ds (dropN (size d) bs) xs xs'); auto; [ | now apply Forall_dropN | rewrite lenN_dropN; lia ]. f_equal. apply takeN_dropN.
Qed.

Lemma stored_same t : forall t' m m' d v v', accepts m Writing t d -> accepts m' Writing t' d -> has_type t v -> has_type t' v' -> same v v' -> encode t d v = encode t' d v'.
Proof.
  induction t as [ t Ha Hs | n t IH | fs IH ] using rty_rect'; intros t' m m' d v v' Hacc Hacc' Hv Hv' Hsame.
  - destruct (accepts_scalar _ _ _ _ (conj Ha Hs) Hacc) as (ts & -> & Hok).
    assert (Hsc' : is_scalar_type t') by (split; intros; intros ->; destruct Hacc' as (Hacc' & _); destruct Hacc').
    destruct (accepts_scalar _ _ _ _ Hsc' Hacc') as (ts' & E & Hok'). injection E as <-. destruct (is_string_type t) eqn:Et.
    + destruct (is_string_type t') eqn:Et'. 2: { apply (number_type _ _ _ _ _ _ Et' Hok') in Hok. subst t'. congruence. }
      pose proof (content_encoded _ _ _ _ (conj Ha Hs) Et Hacc Hv) as C. pose proof (content_encoded _ _ _ _ Hsc' Et' Hacc' Hv') as C'.
      destruct (ts_char ts); try contradiction; destruct C as (x & Hx & ->), C' as (y & Hy & ->).
      * now rewrite (same_byte_content _ _ _ _ Hsame Hx Hy).
      * now rewrite (same_unit_content _ _ _ _ _ _ Hv Hv' Hsame Hx Hy).
      * now rewrite (same_byte_content _ _ _ _ Hsame Hx Hy).
    + apply (number_type _ _ _ _ _ _ Et Hok) in Hok'. subst t'. apply (same_number t) in Hsame as ->; auto.
  - apply accepts_array_inv in Hacc as (d' & -> & Hacc). destruct t' as [ | | | | | | | | | | | | | n' t' | ]; try (now destruct Hacc'). destruct Hacc' as (-> & Hacc').
    destruct v as [ | | | | | | | l | ]; try (now destruct Hv). apply same_array_inv in Hsame as (l' & -> & Hsame). destruct Hv as (_ & Hv), Hv' as (_ & Hv'). rewrite !encode_array.
    revert Hv Hv'. induction Hsame as [ | x x' l l' Hx Hl IHl ]; intros Hv Hv'; [ reflexivity | ]. inversion Hv; inversion Hv'; subst. cbn [encode_seq]. fold (encode_seq t d') (encode_seq t' d').
    rewrite (IH t' m m' d' x x') by auto. rewrite IHl by auto. reflexivity.
  - apply accepts_struct_inv in Hacc as (ds & -> & Hacc). destruct t' as [ | | | | | | | | | | | | | | fs' ]; try (now destruct Hacc'). rewrite accepts_struct in Hacc'.
    destruct v as [ | | | | | | | | l ]; try (now destruct Hv). apply same_struct_inv in Hsame as (l' & -> & Hsame). rewrite has_type_struct in *. rewrite !encode_struct.
    revert fs' ds l l' Hacc Hacc' Hv Hv' Hsame. induction IH as [ | (name, t) fs Hf Hfs IHfs ]; intros [ | (name', t') fs' ] [ | (nm, d) ds ] l l' Hacc Hacc' Hv Hv' Hsame;
      try (now destruct Hacc); try (now destruct Hacc').
    + destruct l as [ | x l ]; [ | now destruct Hv ]. inversion Hsame; subst. reflexivity.
    + destruct l as [ | x l ]; [ now destruct Hv | ]. inversion Hsame as [ | ? x' ? xs' Hx Hxs ]; subst. cbn [has_types] in Hv, Hv'. fold has_types in Hv, Hv'.
      destruct Hacc as (_ & Hacc & Haccs), Hacc' as (_ & Hacc' & Haccs'), Hv as (Hv & Hvs), Hv' as (Hv' & Hvs'). cbn [encode_fields]. fold encode_fields.
      cbn [snd] in Hf. rewrite (Hf t' m m' d x x') by auto. rewrite (IHfs fs' ds l xs') by auto. reflexivity.
Qed.

(** * One type reads what another does *)
Lemma laxer_decodes t t' d : laxer t t' d -> forall m m' bs v', accepts m Reading t d -> accepts m' Reading t' d -> decode t' d bs = Some v' -> exists v, decode t d bs = Some v.
Proof.
  assert (U : forall us, forallb scalar_value us = true -> forallb (fun u => u <? 0x110000) us = true).
  { intros us H. rewrite forallb_forall in *. intros x Hx. specialize (H x Hx). unfold scalar_value in H. lia. }
  induction 1 as [ t d | t t' ts Ht | t t' ts Hc Ht Ht' | t t' ts Hc Ht | t t' ts Hc Ht' | n t t' d H IH | name t t' fs fs' d ds H IH H' IH' ]; intros m m' bs v' Hacc Hacc' Hd.
  - eauto.
  - destruct Ht as [ -> | [ (n & ->) | (n & ->) ] ]; cbn [decode]; eauto.
  - assert (E : exists s, from_utf8 (strip bs) = Some s).
    { destruct Ht' as [ -> | (n & ->) ]; cbn [decode] in Hd; rewrite ?Hc in Hd; (destruct (from_utf8 (strip bs)); [ eauto | discriminate ]). }
    destruct E as (s & E). destruct Ht as [ -> | (n & ->) ]; cbn [decode]; rewrite ?Hc, E; cbn [omap]; eauto.
  - assert (E : forallb (fun u => u <? 0x110000) (utf32_units (ts_endianness ts) (ts_size ts) bs) = true).
    { destruct t' as [ [ | ] w | | | | | | | | | | | | | | ]; try (now destruct Hacc'); cbn [accepts scalar_ok] in Hacc'; rewrite Hc in Hacc'; cbn [decode] in Hd; rewrite ?Hc in Hd;
        try (exfalso; intuition discriminate); try (destruct (forallb _ _) eqn:E in Hd; [ now auto | discriminate ]). }
    destruct Ht as [ -> | (n & ->) ]; cbn [decode]; rewrite E; eauto.
  - assert (E : forallb scalar_value (utf32_units (ts_endianness ts) (ts_size ts) bs) = true).
    { destruct Ht' as [ -> | [ -> | (n & ->) ] ]; cbn [decode] in Hd; rewrite ?Hc in Hd; (destruct (forallb _ _) eqn:E in Hd; [ now auto | discriminate ]). }
    destruct t as [ [ | ] w | | | | | | | | | | | | | | ]; try (now destruct Hacc); cbn [accepts scalar_ok] in Hacc; rewrite Hc in Hacc; cbn [decode]; rewrite ?Hc, ?E, ?(U _ E); eauto; exfalso; try (intuition discriminate).
  - cbn [accepts] in Hacc, Hacc'. destruct Hacc as (_ & Hacc), Hacc' as (_ & Hacc'). cbn [decode] in *.
    destruct (all_some (map (decode t' d) (pieces (N.to_nat n) (size d) bs))) as [ l' | ] eqn:E; [ | discriminate ]. clear Hd.
    enough (G : exists l, all_some (map (decode t d) (pieces (N.to_nat n) (size d) bs)) = Some l) by (destruct G as (l & ->); cbn [omap]; eauto).
    revert bs l' E. induction (N.to_nat n) as [ | k IHk ]; intros bs l' E; [ exists []; reflexivity | ]. cbn [pieces map all_some] in *.
    destruct (decode t' d (takeN (size d) bs)) as [ x | ] eqn:Ex; [ | discriminate ]. destruct (all_some _) as [ xs | ] eqn:Exs in E; [ | discriminate ].
    destruct (IH m m' _ _ Hacc Hacc' Ex) as (y & ->). destruct (IHk _ _ Exs) as (ys & ->). eauto.
  - destruct Hacc as (_ & Hacc & Haccs), Hacc' as (_ & Hacc' & Haccs'). rewrite !decode_struct in *. cbn [decode_fields] in *. fold decode_fields in *.
    destruct (decode t' d (takeN (size d) bs)) as [ x | ] eqn:Ex; [ | discriminate ]. destruct (decode_fields fs' ds (dropN (size d) bs)) as [ xs | ] eqn:Exs; [ | discriminate ].
    destruct (IH m m' _ _ Hacc Hacc' Ex) as (y & ->). specialize (IH' m m' (dropN (size d) bs)). rewrite !decode_struct, Exs in IH'.
    destruct (IH' _ Haccs Haccs' eq_refl) as (ys & Eys). destruct (decode_fields fs ds _); [ cbn [omap]; eauto | discriminate ].
Qed.

(** * Items *)
Lemma items_same c c' t t' d r r' input v v' rest rest' : wf_dtype d -> reader c t d = DOk r -> reader c' t' d = DOk r' -> room t d -> room t' d -> bytes_ok input ->
  run (read_one c r) input = (Ok v, rest) -> run (read_one c' r') input = (Ok v', rest') -> same v v' /\ rest = rest'.
Proof.
  intros Hw Hr Hr' Hm Hm' Hb E E'. pose proof (unreadable_sound c t d r input Hw Hr Hb) as H. rewrite E in H. destruct H as (bs & Hi & Hl & Hd).
  pose proof (unreadable_sound c' t' d r' input Hw Hr' Hb) as H. rewrite E' in H. destruct H as (bs' & Hi' & Hl' & Hd'). pose proof Hi' as X. rewrite Hi in X. apply app_inj_lenN in X as (<- & <-); [ | lia ].
  split; [ | reflexivity ]. rewrite Hi in Hb. apply Forall_app in Hb as (Hb & _). apply (reads_same t t' (c_usize_max c) (c_usize_max c') d bs); auto; apply reader_accepts; eauto.
Qed.
Lemma laxer_reads c c' t t' d r r' input v' rest : laxer t t' d -> wf_dtype d -> strings_fit (c_usize_max c) d -> reader c t d = DOk r -> reader c' t' d = DOk r' -> bytes_ok input ->
  run (read_one c' r') input = (Ok v', rest) -> exists v, run (read_one c r) input = (Ok v, rest).
Proof.
  intros H Hw Hs Hr Hr' Hb E. pose proof (unreadable_sound c' t' d r' input Hw Hr' Hb) as X. rewrite E in X. destruct X as (bs & -> & Hl & Hd). apply Forall_app in Hb as (Hb & _).
  destruct (laxer_decodes t t' d H (c_usize_max c) (c_usize_max c') bs v') as (v & Hv); auto; try (apply reader_accepts; eauto). exists v. now apply (item_value c t d).
Qed.
Lemma item_rewritten c c' t t' d r w input v v' rest : wf_dtype d -> strings_fit (c_usize_max c') d -> reader c t d = DOk r -> writer c' t' d = DOk w -> room t d -> bytes_ok input ->
  run (read_one c r) input = (Ok v, rest) -> has_type t' v' -> same v v' -> exists bs, write_one c' w v' = (bs, Ok tt) /\ input = bs ++ rest.
Proof.
  intros Hw Hs Hr Hwr Hm Hb E Hv Hsame. pose proof (unreadable_sound c t d r input Hw Hr Hb) as H. rewrite E in H. destruct H as (bs & -> & Hl & Hd). exists bs. split; [ | reflexivity ].
  apply (write_exact c' t' d); auto. apply Forall_app in Hb as (Hb & _). apply (item_back t t' (c_usize_max c) (c_usize_max c') d bs v v'); auto; [ apply reader_accepts | apply writer_accepts ]; eauto.
Qed.
Lemma writes_same c c' t t' d w w' v v' bs : wf_dtype d -> strings_fit (c_usize_max c) d -> strings_fit (c_usize_max c') d -> writer c t d = DOk w -> writer c' t' d = DOk w' -> has_type t v -> has_type t' v' -> same v v' ->
  write_one c w v = (bs, Ok tt) <-> write_one c' w' v' = (bs, Ok tt).
Proof.
  intros Hw Hs Hs' Hr Hr' Hv Hv' H. rewrite (write_exact c t d), (write_exact c' t' d) by auto.
  rewrite (stored_same t t' (c_usize_max c) (c_usize_max c') d v v') by (auto; apply writer_accepts; eauto). tauto.
Qed.

(** * Whole files *)
Lemma all_same c c' t t' d r r' : wf_dtype d -> reader c t d = DOk r -> reader c' t' d = DOk r' -> room t d -> room t' d -> forall k input l l' rest rest', bytes_ok input ->
  run (rreplicate k (read_one c r)) input = (Ok l, rest) -> run (rreplicate k (read_one c' r')) input = (Ok l', rest') -> Forall2 same l l' /\ rest = rest'.
Proof.
  intros Hw Hr Hr' Hm Hm'. induction k as [ | k IH ]; intros input l l' rest rest' Hb E E'.
  - cbn in E, E'. injection E as <- <-. injection E' as <- <-. auto.
  - rewrite run_rreplicate_S in E, E'. destruct (run (read_one c r) input) as ([ v | e | ], rest1) eqn:E1; try discriminate. destruct (run (read_one c' r') input) as ([ v' | e' | ], rest2) eqn:E2; try discriminate.
    cbn [then_] in E, E'. destruct (items_same c c' t t' d r r' input v v' rest1 rest2) as (Hv & <-); auto. apply run_suffix in E1 as (u & ->). apply Forall_app in Hb as (_ & Hb).
    destruct (run (rreplicate k (read_one c r)) rest1) as ([ vs | e | ], rest3) eqn:E3; try discriminate. destruct (run (rreplicate k (read_one c' r')) rest1) as ([ vs' | e' | ], rest4) eqn:E4; try discriminate.
    cbn [then_] in E, E'. apply pair_inj in E as (E & <-), E' as (E' & <-). apply Ok_inj in E as <-, E' as <-. destruct (IH _ _ _ _ _ Hb E3 E4) as (H & <-). auto.
Qed.
Lemma all_laxer c c' t t' d r r' : laxer t t' d -> wf_dtype d -> strings_fit (c_usize_max c) d -> reader c t d = DOk r -> reader c' t' d = DOk r' -> forall k input l' rest, bytes_ok input ->
  run (rreplicate k (read_one c' r')) input = (Ok l', rest) -> exists l, run (rreplicate k (read_one c r)) input = (Ok l, rest).
Proof.
  intros H Hw Hs Hr Hr'. induction k as [ | k IH ]; intros input l' rest Hb E.
  - cbn in E. injection E as <- <-. exists []. reflexivity.
  - rewrite run_rreplicate_S in E. destruct (run (read_one c' r') input) as ([ v' | e' | ], rest2) eqn:E2; try discriminate. cbn [then_] in E.
    destruct (laxer_reads c c' t t' d r r' input v' rest2) as (v & Hv); auto. apply run_suffix in E2 as (u & ->). pose proof Hb as Hb'. apply Forall_app in Hb' as (_ & Hb').
    destruct (run (rreplicate k (read_one c' r')) rest2) as ([ vs' | e' | ], rest4) eqn:E4; try discriminate. cbn [then_] in E. apply pair_inj in E as (_ & <-).
    destruct (IH _ _ _ Hb' E4) as (vs & Hvs). exists (v :: vs). rewrite run_rreplicate_S, Hv. cbn [then_]. rewrite Hvs. reflexivity.
Qed.
Lemma all_rewritten c m' t t' d r : wf_dtype d -> reader c t d = DOk r -> accepts m' Writing t' d -> room t d -> forall k input l l' rest, bytes_ok input ->
  run (rreplicate k (read_one c r)) input = (Ok l, rest) -> Forall (has_type t') l' -> Forall2 same l l' -> encodings t' d l' (takeN (N.of_nat k * size d) input) /\ lenN l = N.of_nat k.
Proof.
  intros Hw Hr Ha Hm. induction k as [ | k IH ]; intros input l l' rest Hb E Hl Hs.
  - cbn in E. injection E as <- <-. inversion Hs; subst. split; [ apply encodings_nil | reflexivity ].
  - rewrite run_rreplicate_S in E. destruct (run (read_one c r) input) as ([ v | e | ], rest1) eqn:E1; try discriminate. cbn [then_] in E.
    destruct (run (rreplicate k (read_one c r)) rest1) as ([ vs | e | ], rest3) eqn:E3; try discriminate. cbn [then_] in E. apply pair_inj in E as (E & <-). apply Ok_inj in E as <-.
    inversion Hs as [ | ? v' ? vs' Hv Hvs ]; subst. inversion Hl as [ | ? ? Hv' Hvs' ]; subst.
    pose proof (unreadable_sound c t d r input Hw Hr Hb) as H. rewrite E1 in H. destruct H as (bs & -> & Hlen & Hd). apply Forall_app in Hb as (Hb & Hb').
    destruct (IH rest1 vs vs' rest3 Hb' E3 Hvs' Hvs) as (He & Hk). split; [ | rewrite lenN_cons; lia ].
    replace (N.of_nat (S k) * size d) with (lenN bs + N.of_nat k * size d) by (rewrite Hlen; lia).
    replace (takeN (lenN bs + N.of_nat k * size d) (bs ++ rest1)) with (bs ++ takeN (N.of_nat k * size d) rest1).
    2: { unfold takeN. rewrite firstn_app. rewrite (firstn_all2 bs) by (unfold lenN; lia). do 2 f_equal. unfold lenN. lia. }
    apply encodings_cons; [ | auto ]. apply (item_back t t' (c_usize_max c) m' d bs v v'); auto. apply reader_accepts; eauto.
Qed.
(** An opened file that was read whole. *)
Lemma read_whole c t f l src1 : npy_into_vec c t f = (Ok l, src1) -> exists rd rest, reader c t (h_dtype (nf_header f)) = DOk rd /\ h_pickled (nf_header f) = false
  /\ run (rreplicate (N.to_nat (h_n_records (nf_header f))) (read_one c rd)) (cur_rest (nf_src f)) = (Ok l, rest)
  /\ src1 = {| cur_data := cur_data (nf_src f); cur_pos := cur_pos (nf_src f) + (lenN (cur_rest (nf_src f)) - lenN rest) |}.
Proof.
  intros H. destruct (npy_data c t f) as [ r | e ] eqn:E. 2: { unfold npy_into_vec in H. rewrite E in H. discriminate. }
  rewrite (into_vec_run _ _ _ _ E) in H. unfold npy_data in E. destruct (h_pickled (nf_header f)) eqn:Ek; [ discriminate | ].
  destruct (reader c t (h_dtype (nf_header f))) as [ rd | ] eqn:Er; [ | discriminate ]. cbn [dbind] in E. injection E as <-. cbn [nr_type] in H. unfold run_cursor in H.
  destruct (run _ _) as (x, rest) eqn:Ex. apply pair_inj in H as (-> & <-). eauto 8.
Qed.
Lemma same_len l l' : Forall2 same l l' -> lenN l = lenN l'.
Proof. induction 1 as [ | x y l l' _ _ IH ]; [ reflexivity | ]. rewrite !lenN_cons. lia. Qed.
Lemma rest_bytes c src f src' : bytes_ok (cur_data src) -> npy_new c src = (Ok f, src') -> bytes_ok (cur_rest (nf_src f)).
Proof. intros Hb Hf. apply Forall_dropN. now rewrite (source_kept _ _ _ _ Hf). Qed.
Lemma files_same c c' t t' src f src' l l' src1 src2 : bytes_ok (cur_data src) -> npy_new c src = (Ok f, src') -> room t (h_dtype (nf_header f)) -> room t' (h_dtype (nf_header f)) ->
  npy_into_vec c t f = (Ok l, src1) -> npy_into_vec c' t' f = (Ok l', src2) -> Forall2 same l l' /\ src1 = src2.
Proof.
  intros Hb Hf Hm Hm' E E'. destruct (opened _ _ _ _ Hb Hf) as (Hw & _). apply read_whole in E as (rd & rest & Hr & _ & Hx & ->). apply read_whole in E' as (rd' & rest' & Hr' & _ & Hx' & ->).
  destruct (all_same c c' t t' _ rd rd' Hw Hr Hr' Hm Hm' _ _ _ _ _ _ (rest_bytes _ _ _ _ Hb Hf) Hx Hx') as (H & <-). auto.
Qed.
Lemma file_laxer c t t' src f src' l' src2 : bytes_ok (cur_data src) -> npy_new c src = (Ok f, src') -> strings_fit (c_usize_max c) (h_dtype (nf_header f)) -> laxer t t' (h_dtype (nf_header f)) ->
  accepts (c_usize_max c) Reading t (h_dtype (nf_header f)) -> npy_into_vec c t' f = (Ok l', src2) -> exists l, npy_into_vec c t f = (Ok l, src2).
Proof.
  intros Hb Hf Hs H Ha E'. destruct (opened _ _ _ _ Hb Hf) as (Hw & _). apply read_whole in E' as (rd' & rest' & Hr' & Hk & Hx' & ->). apply reader_accepts in Ha as (rd & Hr).
  destruct (all_laxer c c t t' _ rd rd' H Hw Hs Hr Hr' _ _ _ _ (rest_bytes _ _ _ _ Hb Hf) Hx') as (l & Hl). exists l.
  assert (E : npy_data c t f = DOk {| nr_header := nf_header f; nr_type := rd; nr_src := nf_src f; nr_index := 0 |}) by (unfold npy_data; now rewrite Hk, Hr).
  rewrite (into_vec_run _ _ _ _ E). cbn [nr_type]. unfold run_cursor. unfold cur_rest in *. now rewrite Hl.
Qed.
Lemma copied c m' t t' src f src' l l' src1 : bytes_ok (cur_data src) -> npy_new c src = (Ok f, src') -> room t (h_dtype (nf_header f)) -> npy_into_vec c t f = (Ok l, src1) ->
  accepts m' Writing t' (h_dtype (nf_header f)) -> Forall (has_type t') l' -> Forall2 same l l' ->
  encodings t' (h_dtype (nf_header f)) l' (takeN (h_n_records (nf_header f) * size (h_dtype (nf_header f))) (cur_rest (nf_src f))) /\ lenN l = h_n_records (nf_header f).
Proof.
  intros Hb Hf Hm E Ha Hv Hs. destruct (opened _ _ _ _ Hb Hf) as (Hw & _). apply read_whole in E as (rd & rest & Hr & _ & Hx & _).
  destruct (all_rewritten c m' t t' _ rd Hw Hr Ha Hm _ _ _ _ _ (rest_bytes _ _ _ _ Hb Hf) Hx Hv Hs) as (H & Hn). rewrite N2Nat.id in *. auto.
Qed.
Lemma written_accepts c t d o h vs s s' : write_file c t d o h (output_kind h) vs s = (Ok tt, s') -> accepts (c_usize_max c) Writing t d.
Proof.
  intros H. unfold write_file, sbind in H. destruct (begin_ c t d o h (output_kind h) s) as ([ w | e | ], s1) eqn:Eb; try discriminate.
  apply begin_ok_inv in Eb as (_ & dict & pad & hdr' & props & info & tw & _ & _ & _ & Hw & _). apply writer_accepts. eauto.
Qed.
Lemma copy_file c c' t t' src f src' l l' src1 o h s s' : bytes_ok (cur_data src) -> npy_new c src = (Ok f, src') -> room t (h_dtype (nf_header f)) -> npy_into_vec c t f = (Ok l, src1) ->
  Forall (has_type t') l' -> Forall2 same l l' -> hint_ok h -> write_file c' t' (h_dtype (nf_header f)) o h (output_kind h) l' s = (Ok tt, s') ->
  exists shape file, final_shape h o (h_n_records (nf_header f)) = Some shape
  /\ finished_file (h_dtype (nf_header f)) o h shape (takeN (h_n_records (nf_header f) * size (h_dtype (nf_header f))) (cur_rest (nf_src f))) file
  /\ placed (sk_data s) (sk_pos s) file (sk_data s').
Proof.
  intros Hb Hf Hm E Hv Hs Hh Hw. destruct (opened _ _ _ _ Hb Hf) as (Hwf & Hn & _). destruct (copied c _ t t' src f src' l l' src1 Hb Hf Hm E (written_accepts _ _ _ _ _ _ _ _ Hw) Hv Hs) as (He & Hl).
  assert (Hl' : lenN l' = h_n_records (nf_header f)) by (rewrite <- Hl; symmetry; now apply (same_len l)).
  destruct (file_exact c' t' _ o h l' s s' Hwf Hv ltac:(lia) Hh Hw) as (shape & payload & file & H1 & H2 & H3 & H4). rewrite (encodings_fun _ _ _ _ _ H2 He) in H3. rewrite Hl' in H1. eauto.
Qed.
Lemma copy_succeeds c c' t t' src f src' l l' src1 o h s : bytes_ok (cur_data src) -> npy_new c src = (Ok f, src') -> room t (h_dtype (nf_header f)) -> npy_into_vec c t f = (Ok l, src1) ->
  Forall (has_type t') l' -> Forall2 same l l' -> hint_ok h -> strings_fit (c_usize_max c') (h_dtype (nf_header f)) -> top_level (h_dtype (nf_header f)) -> accepts (c_usize_max c') Writing t' (h_dtype (nf_header f)) ->
  short_header (h_dtype (nf_header f)) h -> sk_fuel s = None -> final_shape h o (h_n_records (nf_header f)) <> None ->
  exists s', write_file c' t' (h_dtype (nf_header f)) o h (output_kind h) l' s = (Ok tt, s').
Proof.
  intros Hb Hf Hm E Hv Hs Hh Hsf Ht Ha Hsh Hfu Hfs. destruct (opened _ _ _ _ Hb Hf) as (Hwf & Hn & _). destruct (copied c _ t t' src f src' l l' src1 Hb Hf Hm E Ha Hv Hs) as (He & Hl).
  assert (Hl' : lenN l' = h_n_records (nf_header f)) by (rewrite <- Hl; symmetry; now apply (same_len l)).
  destruct (writing_succeeds c' t' (h_dtype (nf_header f)) o h l' s) as (r & s' & Hw & Hr); auto; [ | lia | ].
  - destruct He as (blocks & He & _). clear - He. induction He; constructor; eauto.
  - rewrite Hl' in Hr. destruct (final_shape h o (h_n_records (nf_header f))); [ | congruence ]. subst r. eauto.
Qed.
(** A copy of a file npyz wrote is that file. *)
Lemma copy_identical c0 c c' t0 t t' d o h vs s0 s1 f src' l src1 l' s s' : wf_dtype d -> Forall (has_type t0) vs -> lenN vs < 2 ^ 64 -> hint_ok h -> sk_data s0 = [] -> sk_pos s0 = 0 ->
  write_file c0 t0 d o h (output_kind h) vs s0 = (Ok tt, s1) -> sizes_fit (c_usize_max c) d ->
  npy_new c {| cur_data := sk_data s1; cur_pos := 0 |} = (Ok f, src') -> room t d -> npy_into_vec c t f = (Ok l, src1) ->
  Forall (has_type t') l' -> Forall2 same l l' -> sk_data s = [] -> sk_pos s = 0 -> write_file c' t' d o h (output_kind h) l' s = (Ok tt, s') -> sk_data s' = sk_data s1.
Proof.
  intros Hwf Hvs Hn Hh Hd0 Hp0 H0 Hz Hf Hm E Hv Hs Hd Hp H.
  destruct (write_file_ok c0 t0 d o h vs s0 s1 Hwf Hvs Hn Hh H0) as (shape & hdr & payload & Hfs & He & Hpl & _ & Hfw).
  destruct (file_exact c0 t0 d o h vs s0 s1 Hwf Hvs Hn Hh H0) as (shape' & payload' & file' & Hfs' & He' & Hff & Hpl'). rewrite Hfs in Hfs'. apply Some_inj in Hfs' as <-. rewrite (encodings_fun _ _ _ _ _ He' He) in *. clear payload' He'.
  unfold placed in Hpl, Hpl'. rewrite Hd0, Hp0 in Hpl, Hpl'. cbn in Hpl, Hpl'. unfold dropN in Hpl, Hpl'. rewrite skipn_nil, app_nil_r in Hpl, Hpl'.
  pose proof (accepts_no_object _ _ _ _ (written_accepts _ _ _ _ _ _ _ _ H0)) as Hno.
  destruct (Hfw c [] (ex_intro _ (size d) (proj2 (num_bytes_exact c d (size d)) (conj Hno (conj Hz eq_refl))))) as (hh & Hrun & Hhd & Hhs & Hho & Hhn). rewrite !app_nil_r in Hrun.
  assert (Hb : bytes_ok (sk_data s1)) by (apply (written_bytes c0 t0 d o h (output_kind h) vs s0 (Ok tt) s1); auto; rewrite Hd0; constructor).
  pose proof (new_run _ _ _ _ Hf) as Hr. rewrite Hpl, Hrun in Hr. apply pair_inj in Hr as (Hr & Hrest). apply Ok_inj in Hr. assert (Hdt : h_dtype (nf_header f) = d) by congruence.
  rewrite <- Hdt in Hm, H.
  destruct (copy_file c c' t t' {| cur_data := sk_data s1; cur_pos := 0 |} f src' l l' src1 o h s s' Hb Hf Hm E Hv Hs Hh H) as (shape2 & file2 & G1 & G2 & G3).
  unfold placed in G3. rewrite Hd, Hp in G3. cbn in G3. unfold dropN in G3. rewrite skipn_nil, app_nil_r in G3. rewrite G3, Hpl'.
  assert (Hcount : h_n_records (nf_header f) = lenN vs) by (rewrite <- Hr, Hhn; now apply (final_count h o)).
  rewrite Hcount, Hfs in G1. apply Some_inj in G1 as <-. rewrite Hdt, Hcount, <- Hrest, takeN_all in G2.
  - now apply (finished_unique d o h shape payload).
  - rewrite (encodings_len _ _ _ _ (written_accepts _ _ _ _ _ _ _ _ H0) Hvs _ He). lia.
Qed.
