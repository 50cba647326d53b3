(** Reading Latin-1 as UTF-8: a header with characters beyond ASCII never means what it says. *)
From Verif Require Import M_Base M_Text M_TypeStr M_PyLit M_IO M_Header M_Read M_Serialize S_Text S_TypeStr S_Python S_DType S_Shape S_Header S_Elem S_Dict S_Open S_Numpy
  P_Base P_Text P_TypeStr P_PyLit P_Interp P_Grammar P_Open P_Defect P_Fault P_Numpy.
Open Scope N_scope.

Notation ascii := (Forall (fun ch => ch < 128)) (only parsing).
Notation high := (Forall (fun ch => 128 <= ch)) (only parsing).
Lemma octets_low c : c < 128 -> utf8_octets c = [c].
Proof. intros H. unfold utf8_octets. now replace (c <? 0x80) with true by lia. Qed.
Lemma octets_high c : 128 <= c -> high (utf8_octets c) /\ 2 <= lenN (utf8_octets c).
Proof.
  intros H. unfold utf8_octets. replace (c <? 0x80) with false by lia.
  destruct (c <? 0x800); [ | destruct (c <? 0x10000) ]; (split; [ repeat constructor; lia | rewrite !lenN_cons; lia ]).
Qed.
Lemma octets_nonempty c : utf8_octets c <> [].
Proof. unfold utf8_octets. destruct (c <? 0x80); [ discriminate | ]. destruct (c <? 0x800); [ discriminate | ]. destruct (c <? 0x10000); discriminate. Qed.
Lemma utf8_app a b : utf8_string (a ++ b) = utf8_string a ++ utf8_string b.
Proof. apply flat_map_app. Qed.
Lemma utf8_low_head s b r : utf8_string s = b :: r -> b < 128 -> exists s', s = b :: s' /\ r = utf8_string s'.
Proof.
  destruct s as [ | c s ]; [ discriminate | ]. cbn [utf8_string flat_map]. intros E Hb. destruct (N.lt_ge_cases c 128) as [ Hc | Hc ].
  - rewrite octets_low in E by auto. cbn [app] in E. injection E as -> <-. eauto.
  - destruct (octets_high c Hc) as (H & _). pose proof (octets_nonempty c) as Hn. destruct (utf8_octets c) as [ | x l ]; [ congruence | ].
    cbn [app] in E. injection E as -> _. apply Forall_inv in H. lia.
Qed.
Lemma octal_utf8 item rest : octal_complete item rest -> octal_complete item (utf8_string rest).
Proof.
  intros H ds n c r E Hd Hl Er. destruct (N.lt_ge_cases c 128) as [ Hc | Hc ].
  - apply utf8_low_head in Er as (s' & -> & _); auto. eapply H; eauto.
  - unfold octal_digit. lia.
Qed.
Lemma raw_octets long q bs rest s : quote q -> high bs -> string_rest long q rest s -> string_rest long q (bs ++ rest) (bs ++ s).
Proof.
  intros Hq H Hr. induction H as [ | b bs Hb _ IH ]; [ exact Hr | ].
  assert (b <> q /\ b <> 92 /\ b <> 10 /\ b <> 13) as (H1 & H2 & H3 & H4) by (destruct Hq; lia).
  apply (string_more long q [b] [b]); auto.
  - apply item_raw; auto.
  - intros ds n c r E. injection E as E _. unfold backslash in E. congruence.
  - intros _ r E. injection E as E _. congruence.
Qed.
(** The strings, read byte by byte and read as UTF-8. *)
Definition shrunk (src s1 s2 : text) : Prop := ascii src /\ s1 = s2 \/ lenN s2 < lenN s1 /\ Exists (fun ch => 128 <= ch) s1.
Lemma shrunk_app i a r b c : ascii i -> shrunk r b c -> shrunk (i ++ r) (a ++ b) (a ++ c).
Proof.
  intros Hi [ (H & ->) | (H1 & H2) ]; [ left; split; [ apply Forall_app; auto | auto ] | right ].
  rewrite !lenN_app. split; [ lia | ]. apply Exists_app. auto.
Qed.
Lemma shrunk_more i o x r b c : lenN x < lenN o -> Exists (fun ch => 128 <= ch) o -> shrunk r b c -> shrunk (i ++ r) (o ++ b) (x ++ c).
Proof.
  intros H1 H2 H. right. split; [ | apply Exists_app; auto ]. rewrite !lenN_app. destruct H as [ (_ & ->) | (H & _) ]; lia.
Qed.
Lemma in_base_ascii base ds n : in_base base ds n -> ascii ds.
Proof. induction 1 as [ | ds n c d _ IH Hd _ ]; [ constructor | ]. apply Forall_app. split; [ exact IH | ]. constructor; [ | constructor ]. unfold digit in Hd. lia. Qed.
Lemma rest_utf8 long q src s : quote q -> string_rest long q src s -> exists s1, string_rest long q (utf8_string src) s1 /\ shrunk src s1 s.
Proof.
  intros Hq. assert (Hqa : q < 128) by (destruct Hq; lia). induction 1 as [ | item xs rest s Hi _ (s1 & H1 & H2) Ho Ht ].
  - assert (ascii (quotes long q)) by (destruct long; repeat constructor; auto). exists []. rewrite utf8_ascii by auto. split; [ constructor | left; auto ].
  - rewrite utf8_app.
    assert (Same : ascii item -> exists s1, string_rest long q (utf8_string item ++ utf8_string rest) s1 /\ shrunk (item ++ rest) s1 (xs ++ s)).
    { intros Ha. exists (xs ++ s1). rewrite (utf8_ascii item) by auto. split; [ | now apply shrunk_app ]. apply string_more; auto using octal_utf8.
      intros Hl r E. specialize (Ht Hl). destruct item as [ | a item ]; [ now apply item_nonempty in Hi | ]. cbn [app] in *. injection E as -> E.
      destruct item as [ | a2 item ].
      - cbn [app] in E. apply utf8_low_head in E as (s' & -> & E); auto. symmetry in E. apply utf8_low_head in E as (s'' & -> & E); auto. eapply Ht. reflexivity.
      - inversion Hi; subst; unfold backslash in *; destruct Hq; subst; try congruence; lia. }
    destruct Hi as [ c Hc Hs | e x He | | ds n Hd Hl | e k ds n He Hd Hl Hv | e He ].
    + destruct (N.lt_ge_cases c 128) as [ Hlt | Hge ]; [ apply Same; auto | ].
      destruct (octets_high c Hge) as (Hh & Hl). exists (utf8_octets c ++ s1). cbn [utf8_string flat_map]. rewrite app_nil_r. split; [ now apply raw_octets | ].
      apply (shrunk_more [c] _ [c]); auto; [ change (lenN [c]) with 1; lia | ]. destruct (utf8_octets c); [ cbn in Hl; lia | ]. constructor. now apply Forall_inv in Hh.
    + apply Same. cbn in He. repeat (destruct He as [ He | He ]; [ injection He as <- <-; repeat constructor | ]). contradiction.
    + apply Same. repeat constructor.
    + apply Same. constructor; [ reflexivity | ]. now apply in_base_ascii in Hd.
    + apply Same. constructor; [ reflexivity | ]. constructor; [ | now apply in_base_ascii in Hd ]. cbn in He.
      repeat (destruct He as [ He | He ]; [ injection He as <- <-; reflexivity | ]). contradiction.
    + destruct (N.lt_ge_cases e 128) as [ Hlt | Hge ]; [ apply Same; repeat constructor; auto | ].
      destruct (octets_high e Hge) as (Hh & Hl). exists ([backslash] ++ utf8_octets e ++ s1).
      cbn [utf8_string flat_map]. rewrite app_nil_r. change (utf8_octets backslash) with [backslash]. split.
      * destruct (utf8_octets e) as [ | b bs ] eqn:E; [ cbn in Hl; lia | ]. inversion Hh as [ | ? ? Hb Hbs ]; subst.
        change (([backslash] ++ b :: bs) ++ utf8_string rest) with ([backslash; b] ++ bs ++ utf8_string rest). change ([backslash] ++ (b :: bs) ++ s1) with ([backslash; b] ++ bs ++ s1).
        apply string_more; [ | now apply raw_octets | apply octal_head; unfold octal_digit; lia | intros _ r Er; injection Er as Er _; unfold backslash in Er; destruct Hq; lia ].
        apply item_other. intros Hin. unfold escape_characters in Hin. cbn in Hin. repeat (destruct Hin as [ Hin | Hin ]; [ lia | ]). exact Hin.
      * rewrite app_assoc. apply (shrunk_more _ _ [backslash; e]); auto; [ rewrite lenN_app; change (lenN [backslash; e]) with 2; change (lenN [backslash]) with 1; lia | ].
        apply Exists_app. right. destruct (utf8_octets e); [ cbn in Hl; lia | ]. constructor. now apply Forall_inv in Hh.
Qed.

(** Values that differ only in strings. *)
Inductive sim : value -> value -> Prop :=
| sim_string src s1 s2 : shrunk src s1 s2 -> sim (VString s1) (VString s2)
| sim_integer z : sim (VInteger z) (VInteger z)
| sim_bool b : sim (VBool b) (VBool b)
| sim_none : sim VNone VNone
| sim_tuple l l' : sims l l' -> sim (VTuple l) (VTuple l')
| sim_list l l' : sims l l' -> sim (VList l) (VList l')
| sim_set l l' : sims l l' -> sim (VSet l) (VSet l')
| sim_dict l l' : simd l l' -> sim (VDict l) (VDict l')
with sims : list value -> list value -> Prop :=
| sims_nil : sims [] []
| sims_cons v v' l l' : sim v v' -> sims l l' -> sims (v :: l) (v' :: l')
with simd : list (value * value) -> list (value * value) -> Prop :=
| simd_nil : simd [] []
| simd_cons k k' v v' l l' : sim k k' -> sim v v' -> simd l l' -> simd ((k, v) :: l) ((k', v') :: l').
Lemma blanks_ascii b : spaces b -> ascii b.
Proof. apply Forall_impl. unfold blank. lia. Qed.
Lemma blanks_utf8 b : spaces b -> utf8_string b = b.
Proof. intros H. apply utf8_ascii, blanks_ascii, H. Qed.
Lemma digits_ascii (P : N -> Prop) src ds : (forall c, P c -> c < 128) -> more_digits P src ds -> ascii src.
Proof. intros HP. induction 1; repeat constructor; auto. Qed.
Lemma signed_ascii src z : signed_rest src z -> ascii src.
Proof.
  induction 1 as [ src n H | c src z Hb _ IH | src z _ IH | src z _ IH ]; try (constructor; [ | exact IH ]); try reflexivity.
  - destruct H as [ src ds H | d src ds Hd H ]; (constructor; [ lia | ]); eapply digits_ascii; [ | exact H | | exact H ]; cbn; intros; subst; lia.
  - unfold blank in Hb. lia.
Qed.
Lemma literal_utf8 :
  (forall src v, literal src v -> exists v1, literal (utf8_string src) v1 /\ sim v1 v /\ (v1 = v -> ascii src))
  /\ (forall close src l, sequence close src l -> close < 128 -> exists l1, sequence close (utf8_string src) l1 /\ sims l1 l /\ (l1 = l -> ascii src))
  /\ (forall src l, entries src l -> exists l1, entries (utf8_string src) l1 /\ simd l1 l /\ (l1 = l -> ascii src)).
Proof.
  apply (literal_all (fun src v _ => exists v1, literal (utf8_string src) v1 /\ sim v1 v /\ (v1 = v -> ascii src))
    (fun close src l _ => close < 128 -> exists l1, sequence close (utf8_string src) l1 /\ sims l1 l /\ (l1 = l -> ascii src))
    (fun src l _ => exists l1, entries (utf8_string src) l1 /\ simd l1 l /\ (l1 = l -> ascii src))).
  - intros src s (prefix & long & q & rest & -> & Hp & Hq & Hr). destruct (rest_utf8 long q rest s Hq Hr) as (s1 & H1 & H2).
    assert (Hpa : ascii prefix) by (destruct Hp as [ -> | [ -> | -> ] ]; repeat constructor).
    assert (Hqa : ascii (quotes long q)) by (destruct Hq as [ -> | -> ], long; repeat constructor).
    exists (VString s1). rewrite !utf8_app, (utf8_ascii prefix), (utf8_ascii (quotes long q)) by auto. split; [ | split ].
    + constructor. exists prefix, long, q, (utf8_string rest). auto.
    + econstructor. exact H2.
    + intros E. injection E as ->. destruct H2 as [ (H2 & _) | (H2 & _) ]; [ | lia ]. repeat (apply Forall_app; split); auto.
  - intros src z H. assert (Ha : ascii src) by (eapply signed_ascii; apply H). exists (VInteger z). rewrite utf8_ascii by auto. split; [ now constructor | split; [ constructor | auto ] ].
  - eexists. split; [ constructor | split; [ constructor | intros _; repeat constructor ] ].
  - eexists. split; [ constructor | split; [ constructor | intros _; repeat constructor ] ].
  - eexists. split; [ constructor | split; [ constructor | intros _; repeat constructor ] ].
  - intros b Hb. rewrite !utf8_app, (blanks_utf8 b) by auto. eexists. split; [ apply lit_empty_tuple; auto | split; [ repeat constructor | intros _ ] ].
    repeat (apply Forall_app; split); auto using blanks_ascii; repeat constructor.
  - intros b1 src v b2 b3 items vs Hb1 Hl (v1 & H1 & H2 & H3) Hb2 Hb3 Hs IH. destruct (IH ltac:(reflexivity)) as (l1 & H4 & H5 & H6).
    rewrite !utf8_app, (blanks_utf8 b1), (blanks_utf8 b2), (blanks_utf8 b3) by auto. exists (VTuple (v1 :: l1)). split; [ apply lit_tuple; auto | ]. split; [ repeat constructor; auto | ].
    intros E. injection E as E1 E2. repeat (apply Forall_app; split); auto using blanks_ascii; repeat constructor.
  - intros b items vs Hb Hs IH. destruct (IH ltac:(reflexivity)) as (l1 & H4 & H5 & H6). rewrite !utf8_app, (blanks_utf8 b) by auto.
    exists (VList l1). split; [ apply lit_list; auto | ]. split; [ constructor; auto | ]. intros E. injection E as E2. repeat (apply Forall_app; split); auto using blanks_ascii; repeat constructor.
  - intros b items vs Hb Hs IH Hne. destruct (IH ltac:(reflexivity)) as (l1 & H4 & H5 & H6). rewrite !utf8_app, (blanks_utf8 b) by auto.
    exists (VSet l1). split; [ apply lit_set; auto; intros ->; inversion H5; congruence | ]. split; [ constructor; auto | ]. intros E. injection E as E2. repeat (apply Forall_app; split); auto using blanks_ascii; repeat constructor.
  - intros b items vs Hb Hs (l1 & H4 & H5 & H6). rewrite !utf8_app, (blanks_utf8 b) by auto.
    exists (VDict l1). split; [ apply lit_dict; auto | ]. split; [ constructor; auto | ]. intros E. injection E as E2. repeat (apply Forall_app; split); auto using blanks_ascii; repeat constructor.
  - intros close Hc. exists []. rewrite utf8_ascii by (repeat constructor; auto). split; [ constructor | split; [ constructor | intros _; repeat constructor; auto ] ].
  - intros close src v b Hl (v1 & H1 & H2 & H3) Hb Hc. rewrite !utf8_app, (blanks_utf8 b), (utf8_ascii [close]) by (auto; repeat constructor; auto).
    exists [v1]. split; [ now apply sequence_last | ]. split; [ repeat constructor; auto | ]. intros E. injection E as E1. repeat (apply Forall_app; split); auto using blanks_ascii; repeat constructor; auto.
  - intros close src v b1 b2 items vs Hl (v1 & H1 & H2 & H3) Hb1 Hb2 Hs IH Hc. destruct (IH Hc) as (l1 & H4 & H5 & H6).
    rewrite !utf8_app, (blanks_utf8 b1), (blanks_utf8 b2) by auto. exists (v1 :: l1). split; [ apply sequence_more; auto | ]. split; [ constructor; auto | ].
    intros E. injection E as E1 E2. repeat (apply Forall_app; split); auto using blanks_ascii; repeat constructor.
  - exists []. split; [ constructor | split; [ constructor | intros _; repeat constructor ] ].
  - intros ks k b1 b2 vs v b3 Hk (k1 & K1 & K2 & K3) Hb1 Hb2 Hv (v1 & V1 & V2 & V3) Hb3.
    rewrite !utf8_app, (blanks_utf8 b1), (blanks_utf8 b2), (blanks_utf8 b3) by auto. exists [(k1, v1)]. split; [ apply entries_last; auto | ]. split; [ repeat constructor; auto | ].
    intros E. injection E as E1 E2. repeat (apply Forall_app; split); auto using blanks_ascii; repeat constructor.
  - intros ks k b1 b2 vs v b3 b4 items l Hk (k1 & K1 & K2 & K3) Hb1 Hb2 Hv (v1 & V1 & V2 & V3) Hb3 Hb4 Hs (l1 & H4 & H5 & H6).
    rewrite !utf8_app, (blanks_utf8 b1), (blanks_utf8 b2), (blanks_utf8 b3), (blanks_utf8 b4) by auto. exists ((k1, v1) :: l1). split; [ apply entries_more; auto | ]. split; [ constructor; auto | ].
    intros E. injection E as E1 E2 E3. repeat (apply Forall_app; split); auto using blanks_ascii; repeat constructor.
Qed.

Lemma sim_ascii s v : ascii s -> sim (VString s) v -> v = VString s.
Proof.
  intros Ha H. inversion H as [ src ? s2 Hs | | | | | | | ]; subst. destruct Hs as [ (_ & ->) | (_ & He) ]; [ reflexivity | ].
  exfalso. apply Exists_exists in He as (c & Hin & Hc). rewrite Forall_forall in Ha. specialize (Ha c Hin). cbn in Ha. lia.
Qed.
Lemma sim_tuple_eq sh v : sim (np_tuple sh) v -> v = np_tuple sh.
Proof.
  unfold np_tuple. intros H. inversion H as [ | | | | ? l' Hs | | | ]; subst. f_equal. clear H. revert l' Hs.
  induction sh as [ | n sh IH ]; cbn [map]; intros l' H; inversion H as [ | ? ? ? ? H1 H2 ]; subst; [ reflexivity | ]. inversion H1; subst. f_equal. now apply IH.
Qed.
Lemma sim_value d : forall v, np_ok d -> sim (np_value d) v -> describes v (np_meaning d) -> v = np_value d.
Proof.
  induction d as [ big s | fs IH ] using np_dtype_rect'; intros v Hok Hs Hd.
  - cbn [np_value] in *. apply sim_ascii; auto. apply np_str_ascii.
  - cbn [np_value] in *. change (map _ fs) with (map np_descr_field fs) in *. inversion Hs as [ | | | | | ? l' Hl | | ]; subst. f_equal.
    cbn [np_meaning] in Hd. inversion Hd as [ | ? ? Hf ]; subst. cbn [np_ok] in Hok. clear Hs Hd. revert l' Hl Hf.
    induction IH as [ | f fs Hx _ IHf ]; intros l' Hl Hf; cbn [map] in *; inversion Hl as [ | ? v' ? l'' H1 H2 ]; subst; [ reflexivity | ].
    destruct Hok as ((O1 & O2 & O3 & O4) & O5). inversion Hf as [ | ? ? ? ? ? F1 F2 ]; subst. f_equal; [ | now apply IHf ].
    unfold np_descr_field in *. inversion H1 as [ | | | | ? tl Ht | | | ]; subst. f_equal.
    inversion Ht as [ | ? n' ? tl' N1 Ht' ]; subst. inversion Ht' as [ | ? d' ? tl'' D1 Ht'' ]; subst.
    assert (T : exists name, n' = VString name).
    { inversion F1 as [ ? name dv ? [ E | E ] | ? name dv sv ? ? [ E | E ] ]; subst; try discriminate; injection E as -> _ _; eauto. }
    destruct T as (name & ->). destruct (npf_title f) eqn:Et; [ inversion N1 | ].
    destruct (npf_shape f) as [ | n sh ] eqn:Esh.
    + inversion Ht''; subst. inversion F1 as [ ? name' dv ? [ E | E ] Hdv | ? name' dv sv ? ? [ E | E ] ]; subst; try discriminate. injection E as -> ->.
      cbn [fold_right] in Hdv. rewrite (Hx dv); auto.
    + inversion Ht'' as [ | ? sv ? tl3 S1 S2 ]; subst. inversion S2; subst. apply sim_tuple_eq in S1 as ->.
      inversion F1 as [ ? name' dv ? [ E | E ] Hdv | ? name' dv sv d0 shape [ E | E ] Hdv Hsv Ef ]; subst; try discriminate. injection E as -> -> <-.
      apply np_shape_value in Hsv as ->; [ | rewrite <- Esh; rewrite Esh; exact O3 ].
      assert (X : forall (sh : list N) a b, fold_right DArray a sh = fold_right DArray b sh -> a = b).
      { clear. induction sh as [ | n sh IH ]; cbn [fold_right]; intros a b E; [ exact E | ]. injection E as E. now apply IH. }
      match goal with K : fold_right DArray d0 (n :: sh) = _ |- _ => apply (X (n :: sh)) in K end. subst d0. rewrite (Hx dv); auto.
Qed.
Lemma sim_dict_says d fortran shape v d' shape' o : np_ok d -> sim (np_dict d fortran shape) v -> header_says v d' shape' o -> d' = np_meaning d -> v = np_dict d fortran shape.
Proof.
  intros Hok Hs Hh ->. unfold np_dict in *. inversion Hs as [ | | | | | | | ? l' Hl ]; subst.
  inversion Hl as [ | ? k1 ? v1 ? ? K1 V1 Hl2 ]; subst. inversion Hl2 as [ | ? k2 ? v2 ? ? K2 V2 Hl3 ]; subst. inversion Hl3 as [ | ? k3 ? v3 ? ? K3 V3 Hl4 ]; subst. inversion Hl4; subst.
  apply sim_ascii in K1 as ->; [ | repeat constructor ]. apply sim_ascii in K2 as ->; [ | repeat constructor ]. apply sim_ascii in K3 as ->; [ | repeat constructor ].
  apply sim_tuple_eq in V3 as ->. inversion V2; subst.
  destruct Hh as (pairs & dv & sv & fo & E & _ & H1 & H2 & _). injection E as <-.
  assert (dv = v1).
  { destruct H1 as (l1 & l2 & E & Hn). destruct l1 as [ | x l1 ]; [ now injection E | ]. exfalso. injection E as _ E.
    destruct l1 as [ | x2 l1 ]; [ discriminate | ]. injection E as _ E. destruct l1 as [ | x3 l1 ]; [ discriminate | ]. injection E as _ E. destruct l1; discriminate. }
  subst v1. rewrite (sim_value d dv); auto.
Qed.
(** A header with characters beyond ASCII in Latin-1 is refused, or its dtype is not the one NumPy meant. *)
Lemma latin_misread p c major d fortran shape data file h rest : np_ok d -> Forall (fun b => b < 256) data -> major = 1 \/ major = 2 ->
  ~ ascii (np_header p d fortran shape) -> np_file p major d fortran shape data file ->
  run (read_and_interpret c) file = (Ok h, rest) -> h_dtype h <> np_meaning d.
Proof.
  intros Hok Hd Hm Hna Hf Hr Eh. destruct (np_preamble _ _ _ _ _ _ _ Hok Hf) as (pre & txt & pad & E & Hp & He & Hb). specialize (Hb Hd).
  apply open_exact in Hr as (pre' & txt' & v & d' & sh' & o & E' & Hp' & Ht & Hs & _ & _ & (Hd' & _)); [ | exact Hb ]. rewrite Hd' in Eh. clear Hd'.
  assert (Ht2 : header_text (txt ++ repeatN 32 pad ++ [10]) v).
  { assert (Hb1 := Hb). rewrite E in Hb1. assert (Hb2 := Hb). rewrite E' in Hb2.
    pose proof (read_header_preamble _ _ data Hp) as R1. pose proof (read_header_preamble _ _ rest Hp') as R2. rewrite <- E in R1. rewrite <- E', R1 in R2.
    apply pair_inj in R2 as (R2 & _). apply header_text_exact; [ exact (preamble_bytes _ _ _ Hb1 Hp) | ]. rewrite R2. apply header_text_exact; auto. exact (preamble_bytes _ _ _ Hb2 Hp'). }
  clear Ht. destruct He as [ (_ & _ & ->) | (He & _) ]; [ | destruct Hm; lia ].
  destruct Ht2 as (src & Hsc & Ht & (b1 & s & b2 & -> & Hb1 & Hb2 & Hl)).
  destruct (proj1 literal_utf8 s v Hl) as (v1 & L1 & S1 & A1).
  assert (P1 : python_literal (utf8_string (b1 ++ s ++ b2)) v1).
  { exists b1, (utf8_string s), b2. rewrite !utf8_app, (blanks_utf8 b1), (blanks_utf8 b2) by auto. auto. }
  rewrite app_assoc in Ht.
  assert (Ex : np_header p d fortran shape ++ repeatN 32 pad = utf8_string (b1 ++ s ++ b2)).
  { destruct Ht as [ Ht | Ht ].
    - apply python_tail in P1 as (q & x & Eq & Hx). rewrite Eq in Ht. apply app_inj_tail in Ht as (_ & Ht). congruence.
    - now apply app_inj_tail in Ht as (Ht & _). }
  assert (P2 : python_literal (np_header p d fortran shape ++ repeatN 32 pad) (np_dict d fortran shape)).
  { exists [], (np_header p d fortran shape), (repeatN 32 pad). repeat (split; auto using spaces_blank, no_space). now apply np_header_literal. }
  rewrite Ex in P2. apply P_Grammar.parse_exact in P1. apply P_Grammar.parse_exact in P2. rewrite P1 in P2. assert (E2 : v1 = np_dict d fortran shape) by congruence; subst v1.
  pose proof (sim_dict_says _ _ _ _ _ _ _ Hok S1 Hs Eh) as Ev. symmetry in Ev. specialize (A1 Ev).
  apply Hna. assert (Ha : ascii (utf8_string (b1 ++ s ++ b2))).
  { rewrite utf8_ascii; repeat (apply Forall_app; split); auto using blanks_ascii. }
  rewrite <- Ex in Ha. now apply Forall_app in Ha as (Ha & _).
Qed.
Lemma ascii_dec s : ascii s \/ ~ ascii s.
Proof.
  induction s as [ | c s [ IH | IH ] ]; [ left; constructor | | right; intros H; apply IH; now inversion H ].
  destruct (N.lt_ge_cases c 128); [ left; constructor; auto | right; intros H'; inversion H'; lia ].
Qed.
Lemma np_right p c major d fortran shape data file : np_ok d -> Forall (fun n => n < 2 ^ 64) shape -> Forall (fun b => b < 256) data -> np_file p major d fortran shape data file ->
  (exists h rest, run (read_and_interpret c) file = (Ok h, rest) /\ h_dtype h = np_meaning d) <->
  known d /\ (major = 3 \/ ascii (np_header p d fortran shape)) /\ no_overflow_met c shape (np_order fortran) /\ countable c (np_meaning d).
Proof.
  intros Hok Hsh Hd Hf. split.
  - intros (h & rest & Hr & Eh). assert (Hm : major = 3 \/ ascii (np_header p d fortran shape)).
    { destruct (ascii_dec (np_header p d fortran shape)) as [ Ha | Ha ]; [ auto | ].
      pose proof Hf as (txt & pad & len & He & _). destruct He as [ (Hm & _) | (-> & _) ]; [ | auto ]. exfalso. eapply latin_misread; eauto. }
    apply (np_open p c major d fortran shape data) in Hr as (H1 & H2 & H3 & _); auto.
  - intros (H1 & H2 & H3 & H4). destruct (from_parts_numbers c _ _ _ H3 H4) as (h & _ & Hn). exists h, data. split; [ | apply Hn ].
    apply (np_open p c major d fortran shape data); auto.
Qed.

(** * Padding *)
Lemma accepts_names u dir fs ds : accepts u dir (RStruct fs) (DRecord ds) -> map fst fs = map fst ds.
Proof.
  cbn [accepts]. revert ds. induction fs as [ | (n, t) fs IH ]; intros [ | (m, d) ds ] H; try contradiction; [ reflexivity | ].
  destruct H as (-> & _ & H). cbn [map fst]. f_equal. now apply IH.
Qed.
Lemma padding_unread u dir fs gs f : Forall (fun x => fst x <> []) fs -> In f gs -> npf_name f = [] -> ~ accepts u dir (RStruct fs) (np_meaning (NpRecord gs)).
Proof.
  intros Hne Hin Hf H. cbn [np_meaning] in H. apply accepts_names in H. rewrite map_map in H. cbn [fst] in H.
  assert (X : In (npf_name f) (map fst fs)) by (eapply eq_ind_r with (P := fun l => In (npf_name f) l); [ | exact H ]; apply in_map_iff; exists f; auto).
  apply in_map_iff in X as (x & Ex & Hx). rewrite Forall_forall in Hne. apply (Hne x Hx). now rewrite Ex, Hf.
Qed.
