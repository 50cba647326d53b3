(** Sizes, Python objects, numeric types, types of decoded values, default dtypes. *)
From Verif Require Import M_Base M_Text M_TypeStr M_IO M_Header M_Read M_Serialize M_NpyReader S_TypeStr S_DType S_Shape S_Header S_Text S_Elem
  P_Base P_Text P_TypeStr P_IO P_Shape P_Header P_Number P_Elem P_ReadOne P_WriteOne P_Codec.
Open Scope N_scope.

(** * num_bytes *)
Definition num_bytes_fields (c : cfg) :=
  fix go (fs : list (text * dtype)) (acc : option N) : option N :=
    match fs with
    | [] => acc
    | (_, ty) :: fs' =>
      go fs' (match acc with
              | None => None
              | Some a => match num_bytes c ty with None => None | Some b => usize_checked_add c a b end
              end)
    end.
Lemma num_bytes_record c fs : num_bytes c (DRecord fs) = num_bytes_fields c fs (Some 0).
Proof. reflexivity. Qed.
Definition fits_fields (m : N) :=
  fix go (fs : list (text * dtype)) : Prop := match fs with [] => True | (_, ty) :: fs' => sizes_fit m ty /\ go fs' end.
Lemma fits_record m fs : sizes_fit m (DRecord fs) = (fits_fields m fs /\ size_fields fs <= m).
Proof. reflexivity. Qed.
Lemma fits_size m d : sizes_fit m d -> size d <= m.
Proof. destruct d; cbn [sizes_fit size]; tauto. Qed.

Lemma num_bytes_none c fs : num_bytes_fields c fs None = None.
Proof. induction fs as [ | (name, ty) fs IH ]; auto. Qed.
Lemma usize_try_from_ok c n m : usize_try_from c n = Some m <-> n <= c_usize_max c /\ m = n.
Proof. unfold usize_try_from. destruct (N.leb_spec n (c_usize_max c)); split; try discriminate; [ intros [= <-]; auto | intros (_ & ->); auto | lia ]. Qed.
Lemma usize_checked_mul_ok c a b n : usize_checked_mul c a b = Some n <-> a * b <= c_usize_max c /\ n = a * b.
Proof. unfold usize_checked_mul. apply usize_try_from_ok. Qed.
Lemma usize_checked_add_ok c a b n : usize_checked_add c a b = Some n <-> a + b <= c_usize_max c /\ n = a + b.
Proof. unfold usize_checked_add. apply usize_try_from_ok. Qed.

Lemma object_record fs : has_object (DRecord fs) <-> exists f, In f fs /\ has_object (snd f).
Proof. split. - intros H. inversion H; subst. eexists; split; [ eassumption | assumption ]. - intros ((name, ty) & Hi & H). econstructor; eauto. Qed.

Lemma num_bytes_exact c d : forall n, num_bytes c d = Some n <-> ~ has_object d /\ sizes_fit (c_usize_max c) d /\ n = size d.
Proof.
  induction d as [ t | k d IH | fs IH ] using dtype_rect'; intros n.
  - cbn [num_bytes sizes_fit size]. unfold ts_num_bytes, scalar_size. split.
    + destruct (usize_try_from c (ts_size t)) as [ b | ] eqn:E; [ | discriminate ]. apply usize_try_from_ok in E as (Hb & ->).
      intros H. destruct (ts_char t) eqn:Hc; try discriminate; try (apply usize_checked_mul_ok in H as (? & ->)); try injection H as <-;
      (split; [ intros Ho; inversion Ho; congruence | split; [ split; lia | lia ] ]).
    + intros (Ho & (H1 & H2) & ->). replace (usize_try_from c (ts_size t)) with (Some (ts_size t)) by (symmetry; now apply usize_try_from_ok).
      destruct (ts_char t) eqn:Hc; auto; [ apply usize_checked_mul_ok; lia | ]. destruct Ho. now constructor.
  - cbn [num_bytes sizes_fit size]. split.
    + destruct (num_bytes c d) as [ b | ] eqn:E; [ | discriminate ]. destruct (proj1 (IH b) eq_refl) as (Ho & Hf & ->).
      destruct (usize_try_from c k) as [ m | ] eqn:E2; [ | discriminate ]. apply usize_try_from_ok in E2 as (Hk & ->).
      intros H. apply usize_checked_mul_ok in H as (Hm & ->). split; [ intros H; inversion H; auto | ]. repeat split; auto; lia.
    + intros (Ho & (Hk & Hf & Hm) & ->). rewrite (proj2 (IH (size d))); [ | repeat split; auto; intros H; apply Ho; now constructor ].
      rewrite (proj2 (usize_try_from_ok c k k)) by auto. apply usize_checked_mul_ok. lia.
  - rewrite num_bytes_record, fits_record, size_record, object_record.
    enough (H : forall acc, acc <= c_usize_max c -> num_bytes_fields c fs (Some acc) = Some n <->
      (forall f, In f fs -> ~ has_object (snd f)) /\ fits_fields (c_usize_max c) fs /\ acc + size_fields fs <= c_usize_max c /\ n = acc + size_fields fs).
    { rewrite H by lia. rewrite !N.add_0_l. split; intros (H1 & H2); split; try tauto; intros; firstorder. }
    induction IH as [ | (name, ty) fs Hty Hfs IHfs ]; intros acc Ha; cbn [num_bytes_fields size_fields fits_fields];
      fold (num_bytes_fields c) (fits_fields (c_usize_max c)) size_fields.
    + split; [ intros [= <-]; repeat split; auto; cbn; lia | intros (_ & _ & _ & ->); f_equal; lia ].
    + cbn [snd] in Hty. split.
      * destruct (num_bytes c ty) as [ b | ] eqn:E; [ | now rewrite num_bytes_none ]. destruct (proj1 (Hty b) eq_refl) as (Ho & Hf & ->).
        destruct (usize_checked_add c acc (size ty)) as [ s | ] eqn:E2; [ | now rewrite num_bytes_none ]. apply usize_checked_add_ok in E2 as (Hs & ->).
        intros H. apply IHfs in H as (H1 & H2 & H3 & ->); auto. repeat split; auto; try lia.
        intros f [ <- | Hi ]; auto.
      * intros (Ho & (Hf & Hfs') & Hs & ->). rewrite (proj2 (Hty (size ty))); [ | repeat split; auto; apply (Ho (name, ty)); now left ].
        rewrite (proj2 (usize_checked_add_ok c acc (size ty) (acc + size ty))) by (split; [ lia | reflexivity ]).
        apply IHfs; [ lia | ]. repeat split; auto; try lia. intros f Hi. apply Ho. now right.
Qed.

Lemma pickled_exact d : uses_pickled_array d = true <-> has_object d.
Proof.
  induction d as [ t | n d IH | fs IH ] using dtype_rect'.
  - cbn [uses_pickled_array]. unfold ts_pickled. split.
    + intros H. constructor. now destruct (ts_char t).
    + intros H. inversion H. now rewrite H1.
  - cbn [uses_pickled_array]. rewrite IH. split; [ now constructor | intros H; now inversion H ].
  - rewrite object_record. cbn [uses_pickled_array].
    induction IH as [ | (name, ty) fs Hty Hfs IHfs ]; [ split; [ discriminate | intros (f & [] & _) ] | ].
    rewrite orb_true_iff, IHfs, Hty. cbn [snd]. split.
    + intros [ H | (f & Hi & H) ]; [ exists (name, ty); split; auto; now left | exists f; split; auto; now right ].
    + intros (f & [ <- | Hi ] & H); [ now left | right; eauto ].
Qed.

(** Accepted dtypes have no objects. *)
Lemma accepts_no_object m dir t : forall d, accepts m dir t d -> ~ has_object d.
Proof.
  induction t as [ t Ha Hs | n t IH | fs IH ] using rty_rect'; intros d Hacc Ho.
  - apply (accepts_scalar _ _ _ _ (conj Ha Hs)) in Hacc as (ts & -> & Hacc). inversion Ho as [ ? Hc | | ]; subst. rewrite Hc in Hacc.
    destruct t; try destruct signed; cbn [scalar_ok] in Hacc; intuition discriminate.
  - apply accepts_array_inv in Hacc as (d' & -> & Hacc). inversion Ho; subst. eapply IH; eauto.
  - apply accepts_struct_inv in Hacc as (ds & -> & Hacc). apply object_record in Ho as (f & Hi & Ho).
    revert ds Hacc Hi. induction IH as [ | (name, t) fs Hf Hfs IHfs ]; intros [ | (name', d) ds ] Hacc Hi; try (now destruct Hacc); try (now destruct Hi).
    destruct Hacc as (_ & Hacc & Haccs). destruct Hi as [ <- | Hi ]; [ exact (Hf d Hacc Ho) | exact (IHfs ds Haccs Hi) ].
Qed.

(** * Numeric types *)
Definition numerics :=
  fix go (fs : list (text * rty)) : Prop := match fs with [] => True | (_, t') :: fs' => numeric t' /\ go fs' end.
Lemma numeric_struct fs : numeric (RStruct fs) = numerics fs.
Proof. reflexivity. Qed.

Lemma signed_of_range w v : v < 256 ^ int_bytes w ->
  (int_min true w <= signed_of (8 * int_bytes w) v <= int_max true w)%Z /\ Z.to_N (signed_of (8 * int_bytes w) v mod 2 ^ (8 * Z.of_N (int_bytes w))) = v.
Proof.
  unfold signed_of, int_min, int_max. intros H.
  destruct w; cbn [int_bytes] in *;
  repeat match goal with |- context [2 ^ ?e] => let v := eval compute in (2 ^ e) in change (2 ^ e) with v end;
  repeat match goal with H : context [256 ^ ?e] |- _ => let v := eval compute in (256 ^ e) in change (256 ^ e) with v in H end;
  repeat match goal with |- context [Z.pow ?b ?e] => let v := eval compute in (Z.pow b e) in change (Z.pow b e) with v end;
  match goal with |- context [if ?a then _ else _] => destruct a eqn:? end; lia.
Qed.
Lemma unsigned_range w v : v < 256 ^ int_bytes w ->
  (int_min false w <= Z.of_N v <= int_max false w)%Z /\ Z.to_N (Z.of_N v mod 2 ^ (8 * Z.of_N (int_bytes w))) = v.
Proof.
  unfold int_min, int_max. intros H.
  destruct w; cbn [int_bytes] in *;
  repeat match goal with H : context [256 ^ ?e] |- _ => let v := eval compute in (256 ^ e) in change (256 ^ e) with v in H end;
  repeat match goal with |- context [Z.pow ?b ?e] => let v := eval compute in (Z.pow b e) in change (Z.pow b e) with v end; lia.
Qed.

(** * Types of decoded values *)
Lemma decode_fields_nil ds bs r : decode_fields [] ds bs = Some r -> ds = [] /\ r = [].
Proof. destruct ds; cbn; [ intros [= <-]; auto | discriminate ]. Qed.

Lemma utf32_units_bound e m bs : bytes_ok bs -> lenN bs = 4 * m -> Forall (fun u => u < 2 ^ 32) (utf32_units e m bs).
Proof.
  intros Hb Hl. unfold utf32_units. apply Forall_map, Forall_forall. intros x Hx. apply pieces_in in Hx as (Hlx & Hbx); auto; [ | lia ].
  pose proof (number_of_bound e x Hbx) as H. rewrite Hlx in H. exact H.
Qed.
Lemma Forall_fit_chars (P : N -> Prop) cap s : Forall P s -> Forall P (fit_chars cap s).
Proof. destruct (fit_chars_spec s cap) as (t & E & _). intros H. rewrite E in H. now apply Forall_app in H. Qed.
Lemma lenN_takeN_le {A} n (l : list A) : lenN (takeN n l) <= n.
Proof. rewrite lenN_takeN. lia. Qed.
Lemma all_some_Forall {A B} (f : A -> option B) (P : B -> Prop) l r : (forall x y, In x l -> f x = Some y -> P y) -> all_some (map f l) = Some r ->
  Forall P r /\ lenN r = lenN l.
Proof.
  revert r. induction l as [ | x l IH ]; intros r H E; cbn [map all_some] in E.
  - injection E as <-. split; constructor.
  - destruct (f x) eqn:Ex; [ | discriminate ]. destruct (all_some (map f l)) eqn:El; [ | discriminate ]. injection E as <-.
    destruct (IH l0) as (H1 & H2); auto. { intros; eapply H; eauto; now right. } split; [ constructor; auto; eapply H; eauto; now left | ].
    now rewrite !lenN_cons, H2.
Qed.

Lemma decode_typed t : forall m d bs v, accepts m Reading t d -> lenN bs = size d -> bytes_ok bs -> decode t d bs = Some v -> has_type t v.
Proof.
  induction t as [ t Ha Hs | n t IH | fs IH ] using rty_rect'; intros m d bs v Hacc Hl Hb Hd.
  - apply (accepts_scalar _ _ _ _ (conj Ha Hs)) in Hacc as (ts & -> & Hacc). cbn [size] in Hl. unfold scalar_size in Hl.
    destruct t; try (now destruct Hacc); cbn [scalar_ok] in Hacc; cbn [decode] in Hd.
    + apply Some_inj in Hd as <-. cbn [has_type].
      assert (Hn : lenN bs = int_bytes w).
      { destruct signed; [ destruct Hacc as (<- & [ Hc | (_ & [ Hc | Hc ]) ]) | destruct Hacc as (<- & Hc) ]; now rewrite Hc in Hl. }
      pose proof (number_of_bound (ts_endianness ts) bs Hb) as B. rewrite Hn in B.
      destruct signed; [ now apply signed_of_range | now apply unsigned_range ].
    + apply Some_inj in Hd as <-. cbn [has_type]. destruct Hacc as (Hn & Hc). rewrite Hc, Hn in Hl. rewrite pow256, <- Hl. now apply number_of_bound.
    + repeat match type of Hd with context [match ?x with _ => _ end] => destruct x; try discriminate end; injection Hd as <-; exact I.
    + apply Some_inj in Hd as <-. cbn [has_type]. destruct Hacc as (Hn & Hc). rewrite Hc, Hn in Hl. rewrite !pow256. split.
      * replace (part_bytes w) with (lenN (takeN (part_bytes w) bs)) at 2 by (rewrite lenN_takeN; lia). apply number_of_bound. now apply Forall_takeN.
      * replace (part_bytes w) with (lenN (dropN (part_bytes w) bs)) at 2 by (rewrite lenN_dropN; lia). apply number_of_bound. now apply Forall_dropN.
    + apply Some_inj in Hd as <-. cbn [has_type]. destruct (ts_char ts); auto. now apply Forall_strip.
    + apply Some_inj in Hd as <-. cbn [has_type]. destruct Hacc as (Hc & ->). rewrite Hc in Hl. auto.
    + apply Some_inj in Hd as <-. cbn [has_type]. destruct Hacc as [ (Hc & Hn) | Hc ]; rewrite Hc in *.
      * split; [ apply Forall_app; split; auto; now apply Forall_repeatN | rewrite lenN_app, lenN_repeatN; lia ].
      * split; [ apply Forall_strip; now apply Forall_takeN | ]. etransitivity; [ apply lenN_strip | apply lenN_takeN_le ].
    + destruct (forallb _ _); [ | discriminate ]. apply Some_inj in Hd as <-. cbn [has_type]. rewrite Hacc in Hl. apply Forall_strip. now apply utf32_units_bound.
    + destruct (forallb _ _) eqn:E; [ | discriminate ]. apply Some_inj in Hd as <-. cbn [has_type]. apply Forall_strip. now apply forallb_Forall.
    + destruct Hacc as [ Hc | Hc ]; rewrite Hc in *.
      * apply omap_some in Hd as (s & E & ->). apply from_utf8_sound in E as (E & _); auto. now apply Forall_strip.
      * destruct (forallb _ _) eqn:E; [ | discriminate ]. apply Some_inj in Hd as <-. cbn [has_type]. apply Forall_strip. now apply forallb_Forall.
    + destruct (forallb _ _); [ | discriminate ]. apply Some_inj in Hd as <-. cbn [has_type]. rewrite Hacc in Hl.
      split; [ apply Forall_strip, Forall_takeN; now apply utf32_units_bound | etransitivity; [ apply lenN_strip | apply lenN_takeN_le ] ].
    + destruct (forallb _ _) eqn:E; [ | discriminate ]. apply Some_inj in Hd as <-. cbn [has_type].
      split; [ apply Forall_strip, Forall_takeN; now apply forallb_Forall | etransitivity; [ apply lenN_strip | apply lenN_takeN_le ] ].
    + apply omap_some in Hd as (s & E & ->). apply from_utf8_sound in E as (E & _); [ | now apply Forall_strip ].
      cbn [has_type]. split; [ now apply Forall_fit_chars | ]. now destruct (fit_chars_spec s n) as (_ & _ & H & _).
  - apply accepts_array_inv in Hacc as (d' & -> & Hacc). cbn [size decode] in *. apply omap_some in Hd as (l & Hd & ->). cbn [has_type].
    apply (all_some_Forall _ (has_type t)) in Hd as (H1 & H2).
    + split; auto. rewrite H2. unfold lenN. rewrite pieces_length. lia.
    + intros x y Hx Hy. apply pieces_in in Hx as (Hlx & Hbx); auto; [ eapply IH; eauto | lia ].
  - apply accepts_struct_inv in Hacc as (ds & -> & Hacc). rewrite size_record in Hl. rewrite decode_struct in Hd. apply omap_some in Hd as (l & Hd & ->).
    rewrite has_type_struct. revert ds bs l Hacc Hl Hb Hd.
    induction IH as [ | (name, t) fs Hf Hfs IHfs ]; intros [ | (name', d) ds ] bs l Hacc Hl Hb Hd; try (now destruct Hacc).
    + injection Hd as <-. exact I.
    + destruct Hacc as (_ & Hacc & Haccs). cbn [decode_fields size_fields] in *. fold decode_fields in Hd. fold size_fields in Hl.
      destruct (decode t d (takeN (size d) bs)) eqn:E1; [ | discriminate ]. destruct (decode_fields fs ds (dropN (size d) bs)) eqn:E2; [ | discriminate ].
      injection Hd as <-. split.
      * apply (Hf m d (takeN (size d) bs)); auto; [ rewrite lenN_takeN; lia | now apply Forall_takeN ].
      * apply (IHfs ds (dropN (size d) bs)); auto; [ rewrite lenN_dropN; lia | now apply Forall_dropN ].
Qed.

(** Every byte pattern of a numeric item is a value, and encodes to itself. *)
Lemma numeric_total t : forall m d bs, numeric t -> accepts m Reading t d -> lenN bs = size d -> bytes_ok bs ->
  exists v, decode t d bs = Some v /\ encode t d v = Some bs.
Proof.
  induction t as [ t Ha Hs | n t IH | fs IH ] using rty_rect'; intros m d bs Hnum Hacc Hl Hb.
  - apply (accepts_scalar _ _ _ _ (conj Ha Hs)) in Hacc as (ts & -> & Hacc). cbn [size] in Hl. unfold scalar_size in Hl.
    destruct t; try (now destruct Hacc); try (now destruct Hnum); cbn [scalar_ok] in Hacc; cbn [decode].
    + eexists; split; [ reflexivity | ]. cbn [encode].
      assert (Hn : lenN bs = int_bytes w).
      { destruct signed; [ destruct Hacc as (<- & [ Hc | (_ & [ Hc | Hc ]) ]) | destruct Hacc as (<- & Hc) ]; now rewrite Hc in Hl. }
      pose proof (number_of_bound (ts_endianness ts) bs Hb) as B. rewrite Hn in B. f_equal.
      replace (Z.to_N _) with (number_of (ts_endianness ts) bs). { rewrite <- Hn. now apply number_number_of. }
      symmetry. destruct signed; [ now apply signed_of_range | now apply unsigned_range ].
    + eexists; split; [ reflexivity | ]. cbn [encode]. destruct Hacc as (Hn & Hc). rewrite Hc, Hn in Hl. rewrite <- Hl. f_equal. now apply number_number_of.
    + eexists; split; [ reflexivity | ]. cbn [encode]. destruct Hacc as (Hn & Hc). rewrite Hc, Hn in Hl. f_equal.
      pose proof (number_number_of (ts_endianness ts) (takeN (part_bytes w) bs) (Forall_takeN _ _ _ Hb)) as H1.
      pose proof (number_number_of (ts_endianness ts) (dropN (part_bytes w) bs) (Forall_dropN _ _ _ Hb)) as H2.
      rewrite lenN_takeN in H1. rewrite lenN_dropN in H2. replace (N.min _ _) with (part_bytes w) in H1 by lia. replace (_ - _) with (part_bytes w) in H2 by lia.
      rewrite H1, H2. apply takeN_dropN.
  - apply accepts_array_inv in Hacc as (d' & -> & Hacc). cbn [size decode] in *.
    assert (E : exists l, all_some (map (decode t d') (pieces (N.to_nat n) (size d') bs)) = Some l /\ encode_seq t d' l = Some bs).
    { assert (Hl' : lenN bs = N.of_nat (N.to_nat n) * size d') by lia. clear Hl. revert bs Hl' Hb. induction (N.to_nat n) as [ | k IHk ]; intros bs Hl Hb.
      - exists []. split; [ reflexivity | ]. cbn. f_equal. symmetry. apply lenN_0. lia.
      - cbn [pieces map all_some]. assert (Hl2 : lenN (dropN (size d') bs) = N.of_nat k * size d') by (rewrite lenN_dropN; lia).
        destruct (IHk _ Hl2 (Forall_dropN _ _ _ Hb)) as (l & E1 & E2).
        destruct (IH m d' (takeN (size d') bs)) as (v & E3 & E4); auto; [ rewrite lenN_takeN; lia | now apply Forall_takeN | ].
        exists (v :: l). rewrite E1, E3. split; [ reflexivity | ]. cbn [encode_seq]. fold (encode_seq t d'). rewrite E4, E2. f_equal. apply takeN_dropN. }
    destruct E as (l & E1 & E2). exists (XSeq l). rewrite E1. split; [ reflexivity | ]. now rewrite encode_array.
  - apply accepts_struct_inv in Hacc as (ds & -> & Hacc). rewrite size_record in Hl. rewrite numeric_struct in Hnum. rewrite decode_struct.
    assert (E : exists l, decode_fields fs ds bs = Some l /\ encode_fields fs ds l = Some bs).
    { revert ds bs Hnum Hacc Hl Hb. induction IH as [ | (name, t) fs Hf Hfs IHfs ]; intros [ | (name', d) ds ] bs Hnum Hacc Hl Hb; try (now destruct Hacc).
      - exists []. split; [ reflexivity | ]. cbn. f_equal. symmetry. now apply lenN_0.
      - destruct Hacc as (_ & Hacc & Haccs). destruct Hnum as (Hn & Hns). cbn [size_fields] in Hl. fold size_fields in Hl.
        destruct (IHfs ds (dropN (size d) bs)) as (l & E1 & E2); auto; [ rewrite lenN_dropN; lia | now apply Forall_dropN | ].
        destruct (Hf m d (takeN (size d) bs)) as (v & E3 & E4); auto; [ rewrite lenN_takeN; lia | now apply Forall_takeN | ].
        cbn [snd] in *. exists (v :: l). cbn [decode_fields encode_fields]. fold decode_fields encode_fields. rewrite E1, E3, E2, E4. split; auto. f_equal. apply takeN_dropN. }
    destruct E as (l & E1 & E2). exists (XRec l). rewrite E1. split; [ reflexivity | ]. now rewrite encode_struct.
Qed.
