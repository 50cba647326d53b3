(** Facts about the layout itself: lengths, decoding after encoding, encoding after decoding. *)
From Verif Require Import M_Base M_Text M_TypeStr M_IO M_Header M_Serialize S_TypeStr S_DType S_Shape S_Header S_Text S_Elem
  P_Base P_Text P_IO P_Shape P_Header P_Number P_Elem P_ReadOne P_WriteOne.
Open Scope N_scope.

Lemma Some_inj {A} (a b : A) : Some a = Some b -> a = b.
Proof. congruence. Qed.

Definition is_scalar_type (t : rty) : Prop := (forall n t', t <> RArray n t') /\ (forall fs, t <> RStruct fs).

Lemma accepts_scalar m dir t d : is_scalar_type t -> accepts m dir t d -> exists ts, d = DPlain ts /\ scalar_ok dir t (ts_char ts) (ts_size ts).
Proof.
  intros (Ha & Hs) H. destruct t; try (now destruct (Ha _ _ eq_refl)); try (now destruct (Hs _ eq_refl)); destruct d as [ ts | | ]; try (now destruct H);
    exists ts; split; auto; apply H.
Qed.

(** * Lengths *)
Lemma padded_len n l p : padded n l = Some p -> lenN p = n /\ p = l ++ repeatN 0 (n - lenN l) /\ lenN l <= n.
Proof. unfold padded. destruct (N.leb_spec (lenN l) n); [ | discriminate ]. intros [= <-]. rewrite lenN_app, lenN_repeatN. repeat split; auto; lia. Qed.
Lemma padded_ok n l : lenN l <= n -> padded n l = Some (l ++ repeatN 0 (n - lenN l)).
Proof. unfold padded. intros H. now replace (lenN l <=? n) with true by lia. Qed.
Lemma Forall_padded (P : N -> Prop) n l p : P 0 -> Forall P l -> padded n l = Some p -> Forall P p.
Proof. intros H0 Hl H. apply padded_len in H as (_ & -> & _). apply Forall_app; split; auto. now apply Forall_repeatN. Qed.
Lemma utf32_len e l : lenN (utf32 e l) = 4 * lenN l.
Proof. induction l; [ reflexivity | ]. unfold utf32 in *. cbn [flat_map]. rewrite lenN_app, lenN_number, IHl, lenN_cons. lia. Qed.
Lemma utf32_bytes e l : bytes_ok (utf32 e l).
Proof. induction l; [ constructor | ]. apply Forall_app; split; auto. apply number_bytes. Qed.
Lemma omap_some {A B} (f : A -> B) o b : omap f o = Some b <-> exists a, o = Some a /\ b = f a.
Proof. destruct o; cbn; split; try discriminate; [ intros [= <-]; eauto | intros (x & [= ->] & ->); auto | intros (x & H & _); discriminate ]. Qed.

Definition encodes_len (t : rty) : Prop := forall m d v bs, accepts m Writing t d -> has_type t v -> encode t d v = Some bs ->
  lenN bs = size d /\ bytes_ok bs.

Lemma encode_len_scalar t : is_scalar_type t -> encodes_len t.
Proof.
  intros Ht m d v bs Ha Hv He. apply (accepts_scalar _ _ _ _ Ht) in Ha as (ts & -> & Ha). cbn [size]. unfold scalar_size.
  destruct t; try (now destruct Ha); destruct v; try (now destruct Hv); cbn [encode] in He; cbn [scalar_ok has_type] in *.
  - apply Some_inj in He as <-. rewrite lenN_number. split; [ | apply number_bytes ].
    destruct signed; [ destruct Ha as (-> & [ Hc | (_ & [ Hc | Hc ]) ]) | destruct Ha as (-> & Hc) ]; rewrite Hc; reflexivity.
  - apply Some_inj in He as <-. destruct Ha as (-> & ->). rewrite lenN_number. split; auto. apply number_bytes.
  - apply Some_inj in He as <-. destruct Ha as (-> & ->). split; [ reflexivity | ]. repeat constructor; destruct b; lia.
  - apply Some_inj in He as <-. destruct Ha as (-> & ->). rewrite lenN_app, !lenN_number. split; [ lia | ]. apply Forall_app; split; apply number_bytes.
  - destruct Ha as [ Hc | Hc ]; rewrite Hc in *.
    + destruct (N.eqb_spec (lenN bs0) (ts_size ts)); [ | discriminate ]. apply Some_inj in He as <-. auto.
    + split; [ now apply padded_len in He | ]. eapply Forall_padded; eauto. reflexivity.
  - apply Some_inj in He as <-. destruct Ha as (-> & ->). tauto.
  - destruct Ha as [ (Hc & Hn) | Hc ]; rewrite Hc in *.
    + destruct (N.eqb_spec (lenN bs0) (ts_size ts)); [ | discriminate ]. apply Some_inj in He as <-. tauto.
    + split; [ now apply padded_len in He | ]. eapply Forall_padded; [ | | eauto ]; [ reflexivity | tauto ].
  - rewrite Ha. destruct (forallb _ us); [ | discriminate ]. apply omap_some in He as (p & Hp & ->). rewrite utf32_len.
    apply padded_len in Hp as (-> & _). split; auto using utf32_bytes.
  - rewrite Ha. apply omap_some in He as (p & Hp & ->). rewrite utf32_len. apply padded_len in Hp as (-> & _). split; auto using utf32_bytes.
  - destruct Ha as [ Hc | Hc ]; rewrite Hc in *.
    + split; [ now apply padded_len in He | ]. eapply Forall_padded; [ | | eauto ]; [ reflexivity | now apply utf8_bytes ].
    + apply omap_some in He as (p & Hp & ->). rewrite utf32_len. apply padded_len in Hp as (-> & _). split; auto using utf32_bytes.
  - rewrite Ha. destruct (forallb _ us); [ | discriminate ]. apply omap_some in He as (p & Hp & ->). rewrite utf32_len.
    apply padded_len in Hp as (-> & _). split; auto using utf32_bytes.
  - rewrite Ha. apply omap_some in He as (p & Hp & ->). rewrite utf32_len. apply padded_len in Hp as (-> & _). split; auto using utf32_bytes.
  - destruct Ha as [ Hc | (Hc & _) ]; rewrite Hc in *.
    + split; [ now apply padded_len in He | ]. eapply Forall_padded; [ | | eauto ]; [ reflexivity | now apply utf8_bytes ].
    + apply omap_some in He as (p & Hp & ->). rewrite utf32_len. apply padded_len in Hp as (-> & _). split; auto using utf32_bytes.
Qed.

Lemma accepts_array_inv m dir n t d : accepts m dir (RArray n t) d -> exists d', d = DArray n d' /\ accepts m dir t d'.
Proof. destruct d; cbn; try tauto. intros (<- & H). eauto. Qed.
Lemma accepts_struct_inv m dir fs d : accepts m dir (RStruct fs) d -> exists ds, d = DRecord ds /\ accepts_fields m dir fs ds.
Proof. destruct d; cbn [accepts scalar_ok]; try tauto. intros H. eauto. Qed.

Lemma encode_seq_len t d l bs n : (forall v b, has_type t v -> encode t d v = Some b -> lenN b = n /\ bytes_ok b) ->
  Forall (has_type t) l -> encode_seq t d l = Some bs -> lenN bs = lenN l * n /\ bytes_ok bs.
Proof.
  intros H Hl. revert bs. induction Hl as [ | x l Hx Hl IH ]; intros bs He; cbn [encode_seq] in He; fold (encode_seq t d) in He.
  - apply Some_inj in He as <-. split; constructor.
  - destruct (encode t d x) as [ a | ] eqn:Ea; [ | discriminate ]. destruct (encode_seq t d l) as [ b | ]; [ | discriminate ]. apply Some_inj in He as <-.
    destruct (H _ _ Hx Ea) as (H1 & H2). destruct (IH _ eq_refl) as (H3 & H4).
    rewrite lenN_app, lenN_cons. split; [ lia | apply Forall_app; auto ].
Qed.

Lemma encode_len t : encodes_len t.
Proof.
  induction t as [ t Ha Hs | n t IH | fs IH ] using rty_rect'.
  - apply encode_len_scalar. split; auto.
  - intros m d v bs Hacc Hv He. apply accepts_array_inv in Hacc as (d' & -> & Hacc). destruct v; try (now destruct Hv).
    destruct Hv as (Hn & Hl). rewrite encode_array in He. cbn [size]. rewrite <- Hn. eapply encode_seq_len; eauto.
  - intros m d v bs Hacc Hv He. apply accepts_struct_inv in Hacc as (ds & -> & Hacc). destruct v; try (now destruct Hv).
    rewrite has_type_struct in Hv. rewrite encode_struct in He. rewrite size_record.
    revert ds l bs Hacc Hv He. induction IH as [ | (name, t) fs Hf Hfs IHfs ]; intros [ | (name', d) ds ] [ | x l ] bs Hacc Hv He;
      try (now destruct Hv); try (now destruct Hacc); cbn [encode_fields] in He.
    + apply Some_inj in He as <-. split; constructor.
    + fold encode_fields in He. destruct (encode t d x) as [ a | ] eqn:Ea; [ | discriminate ].
      destruct (encode_fields fs ds l) as [ b | ] eqn:Eb; [ | discriminate ]. apply Some_inj in He as <-.
      destruct Hacc as (_ & Hacc & Haccs). destruct Hv as (Hx & Hl). destruct (Hf _ _ _ _ Hacc Hx Ea) as (H1 & H2).
      destruct (IHfs _ _ _ Haccs Hl Eb) as (H3 & H4). rewrite lenN_app. cbn [size_fields]. fold size_fields. split; [ lia | now apply Forall_app ].
Qed.

(** * Decoding after encoding *)
Lemma pieces_concat {A} (f : A -> bytes) n l rest : Forall (fun x => lenN (f x) = n) l ->
  pieces (List.length l) n (flat_map f l ++ rest) = map f l.
Proof.
  induction 1 as [ | x l Hx Hl IH ]; [ reflexivity | ]. cbn [List.length pieces flat_map map].
  rewrite <- app_assoc, takeN_app, dropN_app by exact Hx. now rewrite IH.
Qed.
Lemma lenN_length {A} (l : list A) : N.to_nat (lenN l) = List.length l.
Proof. unfold lenN. lia. Qed.
Lemma utf32_units_utf32 e l m : lenN l = m -> Forall (fun u => u < 2 ^ 32) l -> utf32_units e m (utf32 e l) = l.
Proof.
  intros <- Hl. unfold utf32_units, utf32. rewrite lenN_length.
  rewrite <- (app_nil_r (flat_map _ _)), pieces_concat, map_map. 2: { apply Forall_forall. intros. apply lenN_number. }
  induction Hl as [ | x l Hx Hl IH ]; cbn [map]; [ reflexivity | ]. now rewrite number_of_number, IH.
Qed.
Lemma forallb_Forall {A} (f : A -> bool) l : forallb f l = true <-> Forall (fun x => f x = true) l.
Proof. rewrite forallb_forall, Forall_forall. reflexivity. Qed.
Lemma strip_utf8 s : strip (utf8 s) = utf8 (strip s).
Proof.
  induction s as [ | ch s IH ] using rev_ind; [ reflexivity | ]. rewrite utf8_app, strip_snoc. cbn [utf8 flat_map]. rewrite app_nil_r.
  destruct (N.eqb_spec ch 0) as [ -> | Hc ].
  - change (utf8_char 0) with [0]. rewrite strip_snoc. exact IH.
  - assert (E : exists p b, utf8_char ch = p ++ [b] /\ b <> 0).
    { unfold utf8_char. destruct (ch <? 0x80); [ exists [], ch; auto | ].
      destruct (ch <? 0x800); [ eexists [_], _; split; [ reflexivity | lia ] | ].
      destruct (ch <? 0x10000); [ eexists [_; _], _; split; [ reflexivity | lia ] | ].
      eexists [_; _; _], _; split; [ reflexivity | lia ]. }
    destruct E as (p & b & E & Hb). rewrite utf8_app. cbn [utf8 flat_map]. rewrite app_nil_r, E, app_assoc, strip_snoc.
    replace (b =? 0) with false by lia. reflexivity.
Qed.
Lemma utf8_len_app a b : lenN (utf8 a) <= lenN (utf8 (a ++ b)).
Proof. rewrite utf8_app, lenN_app. lia. Qed.
Lemma utf8_strip_len s : lenN (utf8 (strip s)) <= lenN (utf8 s).
Proof. destruct (strip_spec s) as (n & E). rewrite E at 2. apply utf8_len_app. Qed.
Lemma fit_chars_all s : forall cap, lenN (utf8 s) <= cap -> fit_chars cap s = s.
Proof.
  induction s as [ | ch s IH ]; intros cap H; [ reflexivity | ]. cbn [utf8 flat_map] in H. fold (utf8 s) in H. rewrite lenN_app in H.
  cbn [fit_chars]. change utf8_octets with utf8_char. replace (lenN (utf8_char ch) <=? cap) with true by lia. rewrite IH; auto. lia.
Qed.
Lemma signed_of_to_bits w z : (int_min true w <= z <= int_max true w)%Z ->
  signed_of (8 * int_bytes w) (Z.to_N (z mod 2 ^ (8 * Z.of_N (int_bytes w)))) = z.
Proof.
  unfold signed_of, int_min, int_max. intros H.
  destruct w; cbn [int_bytes] in *;
  repeat match goal with |- context [2 ^ ?e] => let v := eval compute in (2 ^ e) in change (2 ^ e) with v end;
  repeat match goal with H : context [Z.pow ?b ?e] |- _ => let v := eval compute in (Z.pow b e) in change (Z.pow b e) with v in H end;
  repeat match goal with |- context [Z.pow ?b ?e] => let v := eval compute in (Z.pow b e) in change (Z.pow b e) with v end;
  match goal with |- (if ?a then _ else _) = _ => destruct a eqn:? end; lia.
Qed.
Lemma unsigned_to_bits w z : (int_min false w <= z <= int_max false w)%Z ->
  Z.of_N (Z.to_N (z mod 2 ^ (8 * Z.of_N (int_bytes w)))) = z.
Proof. unfold int_min, int_max. intros H. rewrite Z.mod_small by lia. lia. Qed.

Definition decodes (t : rty) : Prop := forall m m' d v bs, accepts m Writing t d -> accepts m' Reading t d -> has_type t v ->
  encode t d v = Some bs -> decode t d bs = Some (read_back t d v).

Lemma takeN_repeatN {A} (x : A) a b : takeN a (repeatN x b) = repeatN x (N.min a b).
Proof.
  replace b with (N.min a b + (b - N.min a b)) at 1 by lia. rewrite repeatN_add, takeN_app_gen, takeN_all by (rewrite lenN_repeatN; lia).
  rewrite <- (app_nil_r (repeatN x (N.min a b))) at 3. f_equal. rewrite lenN_repeatN. destruct (N.le_gt_cases a b).
  - replace (a - N.min a b) with 0 by lia. reflexivity.
  - replace (b - N.min a b) with 0 by lia. apply takeN_all. cbn. lia.
Qed.
Lemma takeN_padded cap l k : lenN l <= cap -> exists j, takeN cap (l ++ repeatN 0 k) = l ++ repeatN 0 j.
Proof.
  intros H. rewrite takeN_app_gen, takeN_all by exact H. exists (N.min (cap - lenN l) k). f_equal.
  apply takeN_repeatN.
Qed.

Lemma decode_scalar t : is_scalar_type t -> decodes t.
Proof.
  intros Ht m m' d v bs Ha Ha' Hv He. apply (accepts_scalar _ _ _ _ Ht) in Ha as (ts & -> & Ha).
  apply (accepts_scalar _ _ _ _ Ht) in Ha' as (ts' & [= <-] & Ha').
  assert (Z32 : 0 < 2 ^ 32) by reflexivity.
  destruct t; try (now destruct Ha); destruct v; try (now destruct Hv); cbn [encode] in He; cbn [scalar_ok has_type] in *; cbn [decode read_back].
  - apply Some_inj in He as <-. rewrite number_of_number by apply to_bits_bound. destruct signed; [ now rewrite signed_of_to_bits | now rewrite unsigned_to_bits ].
  - apply Some_inj in He as <-. now rewrite number_of_number by (now rewrite <- pow256).
  - apply Some_inj in He as <-. destruct b; reflexivity.
  - apply Some_inj in He as <-. rewrite takeN_app, dropN_app by apply lenN_number. rewrite !pow256 in Hv. now rewrite !number_of_number by tauto.
  - destruct Ha as [ Hc | Hc ]; rewrite Hc in *.
    + destruct (_ =? _); [ | discriminate ]. now apply Some_inj in He as <-.
    + apply padded_len in He as (_ & -> & _). now rewrite strip_zeros.
  - now apply Some_inj in He as <-.
  - destruct Ha as [ (Hc & Hn) | Hc ]; rewrite Hc in *.
    + destruct (_ =? _); [ | discriminate ]. now apply Some_inj in He as <-.
    + apply padded_len in He as (_ & -> & _). destruct (takeN_padded n bs0 (ts_size ts - lenN bs0) (proj2 Hv)) as (j & ->). now rewrite strip_zeros.
  - destruct (forallb _ us) eqn:Hf; [ | discriminate ]. apply omap_some in He as (p & Hp & ->).
    rewrite utf32_units_utf32; [ | now apply padded_len in Hp | eapply Forall_padded; eauto ].
    apply padded_len in Hp as (_ & -> & _). replace (forallb _ (us ++ _)) with true. { now rewrite strip_zeros. }
    rewrite forallb_app, Hf. symmetry. apply forallb_Forall, Forall_repeatN. reflexivity.
  - apply omap_some in He as (p & Hp & ->).
    rewrite utf32_units_utf32; [ | now apply padded_len in Hp | eapply Forall_padded; [ exact Z32 | apply scalars_u32, Hv | exact Hp ] ].
    replace (forallb _ p) with true. { apply padded_len in Hp as (_ & -> & _). now rewrite strip_zeros. }
    symmetry. apply forallb_Forall. eapply Forall_padded; [ | exact Hv | exact Hp ]; reflexivity.
  - destruct Ha as [ Hc | Hc ]; rewrite Hc in *.
    + apply padded_len in He as (_ & -> & _). rewrite strip_zeros, strip_utf8, from_utf8_utf8; [ reflexivity | ]. now apply Forall_strip.
    + apply omap_some in He as (p & Hp & ->).
      rewrite utf32_units_utf32; [ | now apply padded_len in Hp | eapply Forall_padded; [ exact Z32 | apply scalars_u32, Hv | exact Hp ] ].
      replace (forallb _ p) with true. { apply padded_len in Hp as (_ & -> & _). now rewrite strip_zeros. }
      symmetry. apply forallb_Forall. eapply Forall_padded; [ | exact Hv | exact Hp ]; reflexivity.
  - destruct Hv as (Hv & Hn). destruct (forallb _ us) eqn:Hf; [ | discriminate ]. apply omap_some in He as (p & Hp & ->).
    rewrite utf32_units_utf32; [ | now apply padded_len in Hp | eapply Forall_padded; eauto ].
    apply padded_len in Hp as (_ & -> & _). replace (forallb _ (us ++ _)) with true.
    { destruct (takeN_padded n us (ts_size ts - lenN us) Hn) as (j & ->). now rewrite strip_zeros. }
    rewrite forallb_app, Hf. symmetry. apply forallb_Forall, Forall_repeatN. reflexivity.
  - destruct Hv as (Hv & Hn). apply omap_some in He as (p & Hp & ->).
    rewrite utf32_units_utf32; [ | now apply padded_len in Hp | eapply Forall_padded; [ exact Z32 | apply scalars_u32, Hv | exact Hp ] ].
    replace (forallb _ p) with true.
    { apply padded_len in Hp as (_ & -> & _). destruct (takeN_padded n us (ts_size ts - lenN us) Hn) as (j & ->). now rewrite strip_zeros. }
    symmetry. apply forallb_Forall. eapply Forall_padded; [ | exact Hv | exact Hp ]; reflexivity.
  - destruct Ha' as [ Hc | (Hc & Hf) ]; [ | discriminate ]. rewrite Hc in *. destruct Hv as (Hv & Hn).
    apply padded_len in He as (_ & -> & _). rewrite strip_zeros, strip_utf8, from_utf8_utf8 by (now apply Forall_strip). cbn [omap].
    change utf8_string with utf8 in *. rewrite fit_chars_all; auto. pose proof (utf8_strip_len s). lia.
Qed.

Lemma decode_encode t : decodes t.
Proof.
  induction t as [ t Ha Hs | n t IH | fs IH ] using rty_rect'.
  - apply decode_scalar. split; auto.
  - intros m m' d v bs Hacc Hacc' Hv He. apply accepts_array_inv in Hacc as (d' & -> & Hacc). apply accepts_array_inv in Hacc' as (d'' & [= <-] & Hacc').
    destruct v; try (now destruct Hv). destruct Hv as (Hn & Hl). rewrite encode_array in He. cbn [decode read_back]. subst n. rewrite lenN_length.
    enough (E : all_some (map (decode t d') (pieces (List.length l) (size d') bs)) = Some (map (read_back t d') l)) by now rewrite E.
    revert bs He. induction Hl as [ | x l Hx Hl IHl ]; intros bs He; [ reflexivity | ]. cbn [encode_seq] in He; fold (encode_seq t d') in He.
    destruct (encode t d' x) as [ a | ] eqn:Ea; [ | discriminate ]. destruct (encode_seq t d' l) as [ b | ] eqn:Eb; [ | discriminate ]. apply Some_inj in He as <-.
    cbn [List.length pieces map all_some].
    destruct (encode_len _ _ _ _ _ Hacc Hx Ea) as (La & _). rewrite takeN_app, dropN_app by exact La.
    rewrite (IH _ _ _ _ _ Hacc Hacc' Hx Ea), (IHl _ eq_refl). reflexivity.
  - intros m m' d v bs Hacc Hacc' Hv He. apply accepts_struct_inv in Hacc as (ds & -> & Hacc). apply accepts_struct_inv in Hacc' as (ds' & [= <-] & Hacc').
    destruct v; try (now destruct Hv).
    rewrite has_type_struct in Hv. rewrite encode_struct in He. rewrite decode_struct. cbn [read_back].
    match goal with |- omap XRec ?a = Some (XRec ?b) => enough (E : a = Some b) by now rewrite E end.
    revert ds l bs Hacc Hacc' Hv He. induction IH as [ | (name, t) fs Hf Hfs IHfs ]; intros [ | (name', d) ds ] [ | x l ] bs Hacc Hacc' Hv He;
      try (now destruct Hv); try (now destruct Hacc); cbn [encode_fields] in He.
    fold encode_fields in He. destruct (encode t d x) as [ a | ] eqn:Ea; [ | discriminate ].
      destruct (encode_fields fs ds l) as [ b | ] eqn:Eb; [ | discriminate ]. apply Some_inj in He as <-.
      destruct Hacc as (_ & Hacc & Haccs). destruct Hacc' as (_ & Hacc' & Haccs'). destruct Hv as (Hx & Hl).
      destruct (encode_len _ _ _ _ _ Hacc Hx Ea) as (La & _).
      cbn [decode_fields]. fold decode_fields. rewrite takeN_app, dropN_app by exact La. cbn [snd] in Hf.
      rewrite (Hf _ _ _ _ _ Hacc Hacc' Hx Ea), (IHfs _ _ _ Haccs Haccs' Hl Eb). reflexivity.
Qed.

Lemma read_back_id t : forall d v, survives t d v -> forall m, accepts m Reading t d -> has_type t v -> read_back t d v = v.
Proof.
  induction t as [ t Ha Hs | n t IH | fs IH ] using rty_rect'; intros d v Hsv m Hacc Hv.
  - apply (accepts_scalar _ _ _ _ (conj Ha Hs)) in Hacc as (ts & -> & Hacc).
    destruct t; try (now destruct Hacc); destruct v; try (now destruct Hv); cbn [read_back survives] in *; auto.
    + destruct (ts_char ts); auto. rewrite strip_id; [ reflexivity | exact (Hsv eq_refl) ].
    + destruct (ts_char ts); try (rewrite Hsv, N.sub_diag; cbn [repeatN]; now rewrite app_nil_r). now rewrite strip_id.
    + now rewrite strip_id.
    + now rewrite strip_id.
    + now rewrite strip_id.
    + now rewrite strip_id.
    + now rewrite strip_id.
    + now rewrite strip_id.
  - apply accepts_array_inv in Hacc as (d' & -> & Hacc). destruct v; try (now destruct Hv). destruct Hv as (_ & Hl). cbn [survives read_back] in *. f_equal.
    induction Hl; [ reflexivity | ]. apply Forall_cons_iff in Hsv as (H1 & H2). cbn [map]. f_equal; eauto.
  - apply accepts_struct_inv in Hacc as (ds & -> & Hacc). destruct v; try (now destruct Hv). rewrite has_type_struct in Hv.
    cbn [survives read_back] in *. f_equal. revert ds l Hacc Hv Hsv.
    induction IH as [ | (name, t) fs Hf Hfs IHfs ]; intros [ | (name', d) ds ] [ | x l ] Hacc Hv Hsv;
      try (now destruct Hv); try (now destruct Hacc); auto.
    destruct Hacc as (_ & Hacc & Haccs). destruct Hv as (Hx & Hl). destruct Hsv as (Hsx & Hsl). f_equal; eauto.
Qed.
