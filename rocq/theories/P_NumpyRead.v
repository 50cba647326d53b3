(** Files NumPy reads. *)
From Verif Require Import M_Base M_Text M_TypeStr M_PyLit M_IO M_Header M_Read M_Write S_Text S_TypeStr S_Python S_DType S_Shape S_Header S_DText S_File S_Elem S_Dict S_Open S_Numpy S_NumpyRead
  S_Write M_Serialize P_Base P_DText P_Elem P_Writer P_WriteFile P_Whole P_File P_ReadOne P_Number P_Text P_TypeStr P_PyLit P_IO P_Header P_Interp P_Grammar P_Open P_Defect P_Fault P_Numpy P_Latin T_Text.
Open Scope N_scope.

Scheme np_type_ind' := Minimality for np_type Sort Prop with np_fields_ind' := Minimality for np_fields Sort Prop.
Combined Scheme np_type_mut from np_type_ind', np_fields_ind'.

(** * Where both understand a description they agree *)
Definition with_mark (e : endianness) (t : type_str) : type_str := {| ts_endianness := e; ts_char := ts_char t; ts_size := ts_size t; ts_units := ts_units t |}.
Lemma orderless_cases s : orderless s -> s = NpBool \/ (exists sg, s = NpInt sg 1) \/ (exists n, s = NpBytes n) \/ (exists n, s = NpVoid n) \/ s = NpObject.
Proof.
  unfold orderless. destruct s as [ | sg n | n | n | n | n | n | | df u ]; cbn [np_mark]; intros H; try discriminate; eauto 6.
  destruct n as [ | [ p | p | ] ]; try discriminate. eauto 6.
Qed.
Lemma orderless_spells mark big s t : In mark ["<"; ">"; "|"]%string -> np_sizes s -> orderless s -> spells (lit mark ++ np_code s) t ->
  known_scalar s /\ normal_type t = np_type_str big s.
Proof.
  intros Hm Hs Ho Ht.
  assert (exists e, lit mark = endianness_to_str e) as (e & He).
  { destruct Hm as [ <- | [ <- | [ <- | [] ] ] ]; [ exists Little | exists Big | exists Irrelevant ]; reflexivity. }
  assert (Hd : known_scalar s /\ lit mark ++ np_code s = type_str_display (with_mark e (np_type_str false s)) /\ legal (with_mark e (np_type_str false s))
               /\ normal_type (with_mark e (np_type_str false s)) = np_type_str big s).
  { rewrite He. destruct (orderless_cases s Ho) as [ -> | [ (sg & ->) | [ (n & ->) | [ (n & ->) | -> ] ] ] ].
    - repeat split; reflexivity.
    - destruct sg; repeat split; cbn; auto.
    - split; [ exact I | ]. split; [ unfold type_str_display, with_mark; cbn [np_code np_type_str ts_endianness ts_char ts_size ts_units ts_pickled type_char_to_str]; now rewrite app_nil_r | ].
      split; [ split; auto | reflexivity ].
    - split; [ exact I | ]. split; [ unfold type_str_display, with_mark; cbn [np_code np_type_str ts_endianness ts_char ts_size ts_units ts_pickled type_char_to_str]; now rewrite app_nil_r | ].
      split; [ split; auto | reflexivity ].
    - repeat split; reflexivity. }
  destruct Hd as (Hk & E & HL & Hn). split; [ exact Hk | ]. apply P_TypeStr.parse_exact in Ht. rewrite E, (display_parse _ HL) in Ht. injection Ht as <-. exact Hn.
Qed.
Lemma normal_np big s : np_sizes s -> normal_type (np_type_str big s) = np_type_str big s.
Proof.
  destruct s as [ | sg n | n | n | n | n | n | | df u ]; cbn [np_sizes]; intros H; try reflexivity.
  - destruct sg; unfold normal_type; cbn [np_type_str ts_char ts_size ts_endianness ts_units]; destruct (n =? 1); reflexivity.
  - destruct df; reflexivity.
Qed.
Lemma type_agree mark big s t : In mark ["<"; ">"; "|"]%string -> np_sizes s -> lit mark = np_mark big s \/ orderless s -> spells (lit mark ++ np_code s) t ->
  normal_type t = np_type_str big s.
Proof.
  intros Hm Hs [ E | Ho ] Ht.
  - rewrite E in Ht. apply (np_spells big s t Hs) in Ht as (_ & ->). now apply normal_np.
  - eapply orderless_spells; eauto.
Qed.
Lemma normal_wrap sh d : normal (fold_right DArray d sh) = fold_right DArray (normal d) sh.
Proof. induction sh as [ | n sh IH ]; cbn [fold_right normal]; [ reflexivity | now rewrite IH ]. Qed.
Lemma tuple_shape sh shape : shape_value (np_tuple sh) shape -> shape = sh.
Proof.
  unfold shape_value, np_tuple. intros (l & [ E | E ] & H); [ discriminate | ]. injection E as <-. revert shape H.
  induction sh as [ | n sh IH ]; intros shape H; inversion H as [ | ? m ? ms (E & _) Hms ]; subst; [ reflexivity | ]. injection E as E. f_equal; [ lia | now apply IH ].
Qed.
Lemma both_agree : (forall v nd, np_type v nd -> forall d, describes v d -> normal d = np_meaning nd)
  /\ (forall l fs, np_fields l fs -> forall ds, describes_fields l ds -> map (fun f => (fst f, normal (snd f))) ds = map (fun f => (npf_name f, fold_right DArray (np_meaning (npf_type f)) (npf_shape f))) fs).
Proof.
  apply np_type_mut.
  - intros mark big s H1 H2 H3 d Hd. inversion Hd as [ ? t Ht | ]; subst. cbn [normal np_meaning]. f_equal. eapply type_agree; eauto.
  - intros l fs _ IH _ _ d Hd. inversion Hd as [ | ? ds Hds ]; subst. cbn [normal np_meaning]. f_equal. now apply IH.
  - intros ds Hd. inversion Hd. reflexivity.
  - intros name v d l fs _ IH1 _ IH2 ds Hd. inversion Hd as [ | ? ? ? d0 ds' Hf Hds ]; subst. cbn [map fst snd npf_name npf_type npf_shape fold_right]. rewrite (IH2 _ Hds). f_equal.
    inversion Hf as [ ? name' dv ? [ E | E ] Hdv | ? name' dv sv ? ? [ E | E ] ]; subst; try discriminate. injection E as -> ->. f_equal. now apply IH1.
  - intros name v d shape l fs _ IH1 _ IH2 ds Hd. inversion Hd as [ | ? ? ? d0 ds' Hf Hds ]; subst. cbn [map fst snd npf_name npf_type npf_shape]. rewrite (IH2 _ Hds). f_equal.
    inversion Hf as [ ? name' dv ? [ E | E ] Hdv | ? name' dv sv d1 sh [ E | E ] Hdv Hsv ]; subst; try discriminate. injection E as -> -> <-.
    apply tuple_shape in Hsv as ->. rewrite normal_wrap. f_equal. f_equal. now apply IH1.
Qed.
Lemma last_unique key pairs v v' : last_value key pairs v -> last_value key pairs v' -> v = v'.
Proof.
  intros (l1 & l2 & -> & H) (m1 & m2 & E & H'). revert m1 E. induction l1 as [ | x l1 IH ]; intros [ | y m1 ] E; cbn [app] in E.
  - now injection E.
  - injection E as <- ->. exfalso. apply H. rewrite map_app. apply in_app_iff. right. now left.
  - injection E as -> <-. exfalso. apply H'. rewrite map_app. apply in_app_iff. right. now left.
  - injection E as _ E. exact (IH _ E).
Qed.
Lemma loads_header major src nd fortran shape data file : np_loads major src nd fortran shape data file ->
  (major = 3 \/ Forall (fun ch => ch < 128) src) -> exists pairs dv, run read_header file = (Ok (VDict pairs), data)
    /\ last_value (lit "descr") pairs dv /\ np_type dv nd /\ last_value (lit "fortran_order") pairs (VBool fortran) /\ last_value (lit "shape") pairs (np_tuple shape).
Proof.
  intros (len & txt & v & pairs & dv & E & H1 & H2 & H3 & _ & H5 & -> & _ & H6 & H7 & H8 & H9) Ha. exists pairs, dv. split; [ | auto ].
  assert (Hm : major = 1 \/ major = 2 \/ major = 3) by tauto.
  assert (Hp : preamble_of ([0x93] ++ lit "NUMPY" ++ [major; 0] ++ len ++ txt) txt) by (exists major, len; auto).
  assert (Ef : file = ([0x93] ++ lit "NUMPY" ++ [major; 0] ++ len ++ txt) ++ data) by (rewrite E, <- !app_assoc; reflexivity).
  assert (Hs : Forall (fun ch => scalar_value ch = true) src /\ txt = utf8_string src).
  { destruct H3 as [ (Hv & ->) | (_ & Hs & Ht) ]; [ | auto ]. destruct Ha as [ -> | Ha ]; [ lia | ]. split; [ now apply ascii_scalar | now rewrite utf8_ascii ]. }
  destruct Hs as (Hs & ->).
  rewrite Ef, (read_header_preamble _ _ _ Hp). f_equal. apply header_text_exact; [ now apply utf8_bytes | ].
  destruct H5 as [ H5 | (body & -> & H5) ]; [ exists src; auto | ]. exists body. apply Forall_app in Hs as (Hs & _). split; [ exact Hs | ].
  split; [ right; now rewrite utf8_app | exact H5 ].
Qed.
Lemma both_read c major src nd fortran shape data file h rest : Forall (fun b => b < 256) file -> np_loads major src nd fortran shape data file ->
  (major = 3 \/ Forall (fun ch => ch < 128) src) -> run (read_and_interpret c) file = (Ok h, rest) ->
  normal (h_dtype h) = np_meaning nd /\ h_shape h = shape /\ h_order h = np_order fortran /\ rest = data.
Proof.
  intros Hb Hl Ha Hr. destruct (loads_header _ _ _ _ _ _ _ Hl Ha) as (pairs & dv & Hh & L1 & L2 & L3 & L4).
  apply open_exact in Hr as (pre & txt & v & d & sh & o & E & Hp & Ht & Hs & _ & _ & Hn); [ | exact Hb ].
  assert (Hv : parse_header_text txt = Ok v) by (apply header_text_exact; auto; eapply preamble_bytes; [ rewrite E in Hb; exact Hb | exact Hp ]).
  rewrite E, (read_header_preamble _ _ _ Hp), Hv in Hh. apply pair_inj in Hh as (Hh & Hd). apply Ok_inj in Hh as ->.
  destruct Hs as (pairs' & dv' & sv & fo & E' & _ & M1 & M2 & M3 & M4 & M5 & ->). injection E' as <-.
  destruct Hn as (N1 & N2 & N3 & _). rewrite N1, N2, N3.
  rewrite (last_unique _ _ _ _ M1 L1) in M2. rewrite (last_unique _ _ _ _ M3 L4) in M4. pose proof (last_unique _ _ _ _ M5 L3) as E2. injection E2 as ->.
  split; [ now apply (proj1 both_agree dv) | ]. split; [ now apply tuple_shape | ]. auto.
Qed.

(** * What npyz writes *)
Lemma type_loads s t : spells s t -> canonical s -> exists nd, np_type (VString s) nd /\ np_meaning nd = DPlain (normal_type t).
Proof.
  intros Hs Hc. pose proof (spells_legal _ _ Hs) as HL. rewrite (canonical_unique _ _ Hs Hc). clear s Hs Hc.
  destruct t as [ e ch n u ]. cbn [legal ts_char ts_size ts_units ts_endianness] in HL.
  set (big := match e with Big => true | _ => false end).
  set (mark := match e with Big => ">" | Little => "<" | Irrelevant => "|" end%string).
  assert (Hm : In mark ["<"; ">"; "|"]%string) by (destruct e; cbn; tauto).
  assert (Hme : lit mark = endianness_to_str e) by (destruct e; reflexivity).
  assert (Hb : e <> Irrelevant -> (if big then Big else Little) = e /\ lit mark = if big then lit ">" else lit "<") by (destruct e; cbn; intros; split; congruence).
  clearbody big mark.
  assert (G : forall sc, np_sizes sc -> lit mark = np_mark big sc \/ orderless sc -> np_code sc = dropN 1 (type_str_display {| ts_endianness := e; ts_char := ch; ts_size := n; ts_units := u |}) ->
            np_type_str big sc = normal_type {| ts_endianness := e; ts_char := ch; ts_size := n; ts_units := u |} ->
            exists nd, np_type (VString (type_str_display {| ts_endianness := e; ts_char := ch; ts_size := n; ts_units := u |})) nd
              /\ np_meaning nd = DPlain (normal_type {| ts_endianness := e; ts_char := ch; ts_size := n; ts_units := u |})).
  { intros sc H1 H2 H3 H4. exists (NpPlain big sc). split; [ | cbn [np_meaning]; now rewrite H4 ].
    assert (E : type_str_display {| ts_endianness := e; ts_char := ch; ts_size := n; ts_units := u |} = lit mark ++ np_code sc)
      by (rewrite H3, Hme; unfold type_str_display; cbn [ts_endianness]; destruct e; reflexivity).
    rewrite E. now constructor. }
  destruct ch; cbn in HL.
  - destruct HL as (-> & ->). apply (G NpBool); [ exact I | right; reflexivity | destruct e; reflexivity | reflexivity ].
  - destruct HL as ([ -> | (Hn & He) ] & ->); [ apply (G (NpInt true 1)); [ cbn; tauto | right; reflexivity | destruct e; reflexivity | reflexivity ] | ].
    destruct (Hb He) as (B1 & B2). apply (G (NpInt true n)); [ cbn; lia | left; rewrite B2; clear B1; decompose [or] Hn; subst; reflexivity | clear B1; decompose [or] Hn; subst; destruct e; reflexivity | ].
    unfold normal_type. cbn [np_type_str ts_char ts_size ts_endianness ts_units]. rewrite B1. now replace (n =? 1) with false by lia.
  - destruct HL as ([ -> | (Hn & He) ] & ->); [ apply (G (NpInt false 1)); [ cbn; tauto | right; reflexivity | destruct e; reflexivity | reflexivity ] | ].
    destruct (Hb He) as (B1 & B2). apply (G (NpInt false n)); [ cbn; lia | left; rewrite B2; clear B1; decompose [or] Hn; subst; reflexivity | clear B1; decompose [or] Hn; subst; destruct e; reflexivity | ].
    unfold normal_type. cbn [np_type_str ts_char ts_size ts_endianness ts_units]. rewrite B1. now replace (n =? 1) with false by lia.
  - destruct HL as (Hn & He & ->). destruct (Hb He) as (B1 & B2).
    apply (G (NpFloat n)); [ cbn; lia | left; rewrite B2; reflexivity | clear B1; decompose [or] Hn; subst; destruct e; reflexivity | ].
    unfold normal_type. cbn [np_type_str ts_char ts_size ts_endianness ts_units]. now rewrite B1.
  - destruct HL as (Hn & He & ->). destruct (Hb He) as (B1 & B2).
    apply (G (NpComplex n)); [ cbn; lia | left; rewrite B2; reflexivity | clear B1; decompose [or] Hn; subst; destruct e; reflexivity | ].
    unfold normal_type. cbn [np_type_str ts_char ts_size ts_endianness ts_units]. now rewrite B1.
  - destruct HL as (-> & He & Hu). destruct (Hb He) as (B1 & B2). destruct u as [ u | ]; [ | congruence ].
    apply (G (NpTime true (Some (1, u)))); [ cbn; lia | left; rewrite B2; reflexivity | destruct e, u; reflexivity | ].
    unfold normal_type. cbn [np_type_str ts_char ts_size ts_endianness ts_units]. now rewrite B1.
  - destruct HL as (-> & He & Hu). destruct (Hb He) as (B1 & B2). destruct u as [ u | ]; [ | congruence ].
    apply (G (NpTime false (Some (1, u)))); [ cbn; lia | left; rewrite B2; reflexivity | destruct e, u; reflexivity | ].
    unfold normal_type. cbn [np_type_str ts_char ts_size ts_endianness ts_units]. now rewrite B1.
  - destruct HL as (Hn & ->). apply (G (NpBytes n)); [ exact Hn | right; reflexivity | | reflexivity ].
    unfold type_str_display, ts_pickled; cbn [ts_endianness ts_char ts_size ts_units type_char_to_str]; rewrite app_nil_r; destruct e; reflexivity.
  - destruct HL as (Hn & He & ->). destruct (Hb He) as (B1 & B2). apply (G (NpUnicode n)); [ exact Hn | left; rewrite B2; reflexivity | | ].
    + unfold type_str_display, ts_pickled; cbn [ts_endianness ts_char ts_size ts_units type_char_to_str]; rewrite app_nil_r; destruct e; reflexivity.
    + unfold normal_type. cbn [np_type_str ts_char ts_size ts_endianness ts_units]. now rewrite B1.
  - destruct HL as (-> & ->). apply (G NpObject); [ exact I | right; reflexivity | destruct e; reflexivity | reflexivity ].
  - destruct HL as (Hn & ->). apply (G (NpVoid n)); [ exact Hn | right; reflexivity | | reflexivity ].
    unfold type_str_display, ts_pickled; cbn [ts_endianness ts_char ts_size ts_units type_char_to_str]; rewrite app_nil_r; destruct e; reflexivity.
Qed.
Lemma plain_agree s t nd : spells s t -> np_type (VString s) nd -> np_meaning nd = DPlain (normal_type t).
Proof. intros Hs H. inversion H; subst. cbn [np_meaning]. f_equal. symmetry. eapply type_agree; eauto. Qed.

(** Literals. *)
Lemma escaped_item c : string_item false 39 (escaped c) [c] /\ forall rest, octal_complete (escaped c) rest.
Proof.
  unfold escaped. destruct (N.eqb_spec c 92) as [ -> | H1 ]; [ split; [ apply (item_simple _ _ 92 92); cbn; tauto | apply octal_head; unfold octal_digit; lia ] | ].
  destruct (N.eqb_spec c 39) as [ -> | H2 ]; [ split; [ apply (item_simple _ _ 39 39); cbn; tauto | apply octal_head; unfold octal_digit; lia ] | ].
  destruct (N.eqb_spec c 13) as [ -> | H3 ]; [ split; [ apply (item_simple _ _ (chr "r") 13); cbn; tauto | apply octal_head; unfold octal_digit; vm_compute; intros (_ & X); now apply X ] | ].
  destruct (N.eqb_spec c 10) as [ -> | H4 ]; [ split; [ apply (item_simple _ _ (chr "n") 10); cbn; tauto | apply octal_head; unfold octal_digit; vm_compute; intros (_ & X); now apply X ] | ].
  split; [ apply item_raw; [ exact H1 | intros _; auto ] | ]. intros rest ds n x r H. injection H as H _. unfold backslash in H. congruence.
Qed.
Lemma quoted_literal s : literal (quoted s) (VString s).
Proof.
  constructor. exists [], false, 39, (flat_map escaped s ++ [39]). split; [ reflexivity | ]. split; [ auto | ]. split; [ auto | ].
  induction s as [ | c s IH ]; [ apply (string_end false 39) | ]. cbn [flat_map]. rewrite <- app_assoc.
  destruct (escaped_item c) as (H1 & H2). apply (string_more false 39 _ [c] _ s); auto. discriminate.
Qed.
Lemma plain_literal s : Forall (fun c => c <> 92 /\ c <> 39 /\ c <> 10 /\ c <> 13) s -> literal (lit "'" ++ s ++ lit "'") (VString s).
Proof.
  intros H. replace s with (flat_map escaped s) at 1; [ apply quoted_literal | ].
  induction H as [ | c s (H1 & H2 & H3 & H4) _ IH ]; [ reflexivity | ]. cbn [flat_map]. rewrite IH. unfold escaped.
  destruct (N.eqb_spec c 92), (N.eqb_spec c 39), (N.eqb_spec c 13), (N.eqb_spec c 10); congruence || reflexivity.
Qed.
Lemma numeral_literal ds n : shortest_numeral ds n -> literal ds (VInteger (Z.of_N n)).
Proof. intros H. apply shortest_unique in H as ->. constructor. apply dec_integer. Qed.
Lemma listed_sequence b l t : spaces b -> listed (lit "," ++ b) l t -> sequence (chr ")") (t ++ lit ")") (map (fun n => VInteger (Z.of_N n)) l).
Proof.
  intros Hb. induction 1 as [ | n ds l t Hn _ IH ]; [ apply sequence_end | ]. cbn [map]. rewrite <- !app_assoc.
  apply (sequence_more (chr ")") ds _ [] b); auto using no_space. now apply numeral_literal.
Qed.
Lemma listed_literal b l t : spaces b -> listed (lit "," ++ b) l t -> literal (lit "(" ++ t ++ lit ")") (np_tuple l).
Proof.
  intros Hb H. destruct H as [ | n ds l t Hn H ]; [ apply (lit_empty_tuple []); apply no_space | ]. unfold np_tuple. cbn [map]. rewrite <- !app_assoc.
  apply (lit_tuple [] ds _ [] b); auto using no_space; [ now apply numeral_literal | eapply listed_sequence; eauto ].
Qed.
Lemma shape_literal h o shape sh r : shape_text h o shape sh r -> literal (lit "(" ++ sh ++ lit ")") (np_tuple shape).
Proof.
  destruct 1 as [ o shape sh H | o n ds H | r n ds rs H1 H2 | r n ds rs H1 H2 ].
  - apply (listed_literal (lit " ")); [ apply one_space | exact H ].
  - rewrite <- app_assoc. apply (lit_tuple [] ds _ [] []); auto using no_space; [ now apply numeral_literal | apply sequence_end ].
  - rewrite <- !app_assoc. apply (lit_tuple [] ds _ [] (lit " ")); auto using no_space, one_space; [ now apply numeral_literal | ].
    apply (sequence_last (chr ")") rs _ []); [ now apply numeral_literal | apply no_space ].
  - rewrite <- !app_assoc. apply (lit_tuple [] rs _ [] (lit " ")); auto using no_space, one_space; [ now apply numeral_literal | ].
    apply (sequence_last (chr ")") ds _ []); [ now apply numeral_literal | apply no_space ].
Qed.

(** Records. *)
Lemma all_record P fs : all_records P (DRecord fs) <-> P (map fst fs) /\ Forall (fun f => all_records P (snd f)) fs.
Proof.
  cbn [all_records]. assert (E : forall l : list (text * dtype), (fix go (fs : list (text * dtype)) : Prop := match fs with [] => True | f :: fs' => all_records P (snd f) /\ go fs' end) l
    <-> Forall (fun f => all_records P (snd f)) l).
  { induction l as [ | f l IH ]; [ split; auto | ]. rewrite Forall_cons_iff, IH. reflexivity. }
  now rewrite E.
Qed.
Lemma all_wrap P sh d : all_records P (fold_right DArray d sh) <-> all_records P d.
Proof. induction sh as [ | n sh IH ]; cbn [fold_right all_records]; [ reflexivity | exact IH ]. Qed.
Lemma np_tuple_inj a b : np_tuple a = np_tuple b -> a = b.
Proof.
  unfold np_tuple. intros H. injection H as H. revert b H. induction a as [ | x a IH ]; intros [ | y b ] H; try discriminate; [ reflexivity | ].
  injection H as H1 H2. f_equal; [ lia | now apply IH ].
Qed.
Lemma not_in_app {A} (x : A) a b : ~ In x (a ++ b) <-> ~ In x a /\ ~ In x b.
Proof. rewrite in_app_iff. tauto. Qed.
Lemma escaped_null s : In 0 (flat_map escaped s) <-> In 0 s.
Proof.
  rewrite in_flat_map. split.
  - intros (c & Hc & H). unfold escaped in H. destruct (c =? 92); [ cbn in H; lia | ]. destruct (c =? 39); [ cbn in H; lia | ].
    destruct (c =? 13); [ destruct H as [ H | [ H | [] ] ]; discriminate | ]. destruct (c =? 10); [ destruct H as [ H | [ H | [] ] ]; discriminate | ].
    destruct H as [ <- | [] ]. exact Hc.
  - intros H. exists 0. split; [ exact H | now left ].
Qed.
Ltac no_zero := let X := fresh in cbn; intros X; repeat (destruct X as [ X | X ]; [ discriminate | ]); exact X.
Lemma quoted_null s : ~ In 0 (quoted s) <-> ~ In 0 s.
Proof.
  unfold quoted. rewrite !not_in_app, escaped_null. assert (~ In 0 (lit "'")) by no_zero. tauto.
Qed.
Lemma numeral_null ds n : shortest_numeral ds n -> ~ In 0 ds.
Proof. intros (H & _) Hi. rewrite Forall_forall in H. specialize (H 0 Hi). cbn in H. lia. Qed.
Lemma listed_null sep l t : ~ In 0 sep -> listed sep l t -> ~ In 0 t.
Proof. intros Hs. induction 1 as [ | n ds l t Hn _ IH ]; [ intros [] | ]. rewrite !not_in_app. repeat split; auto. eapply numeral_null; eauto. Qed.
Lemma display_chars t : Forall (fun c => c <> 0 /\ c <> 92 /\ c <> 39 /\ c <> 10 /\ c <> 13) (type_str_display t).
Proof.
  unfold type_str_display. repeat (apply Forall_app; split).
  - destruct (ts_endianness t); repeat constructor; discriminate.
  - destruct (ts_char t); repeat constructor; discriminate.
  - destruct (ts_pickled t); [ constructor | ]. eapply Forall_impl; [ | apply dec_digits ]. intros c Hc. apply is_digit_iff in Hc. lia.
  - destruct (ts_units t) as [ u | ]; [ | constructor ]. destruct u; repeat constructor; discriminate.
Qed.
Lemma text_loads :
  (forall d t, dtype_text d t -> exists v, literal t v /\ (distinct_names d -> named d -> exists nd, np_type v nd)
     /\ (forall nd, np_type v nd -> np_meaning nd = normal d /\ distinct_names d /\ named d) /\ (~ In 0 t <-> no_null d))
  /\ (forall fs t, fields_text fs t -> exists vs, sequence (chr "]") (t ++ lit "]") vs
     /\ (Forall (fun f => distinct_names (snd f)) fs -> Forall (fun f => named (snd f)) fs -> exists nfs, np_fields vs nfs)
     /\ (forall nfs, np_fields vs nfs -> map (fun f => (npf_name f, fold_right DArray (np_meaning (npf_type f)) (npf_shape f))) nfs = map (fun f => (fst f, normal (snd f))) fs
          /\ Forall (fun f => distinct_names (snd f)) fs /\ Forall (fun f => named (snd f)) fs)
     /\ (~ In 0 t <-> Forall (fun name => ~ In 0 name) (map fst fs) /\ Forall (fun f => no_null (snd f)) fs)).
Proof.
  assert (Z1 : ~ In 0 (lit "[")) by no_zero. assert (Z2 : ~ In 0 (lit "]")) by no_zero. assert (Z3 : ~ In 0 (lit "(")) by no_zero. assert (Z4 : ~ In 0 (lit "), ")) by no_zero.
  assert (Z5 : ~ In 0 (lit ", ")) by no_zero. assert (Z6 : ~ In 0 (lit ", (")) by no_zero. assert (Z7 : ~ In 0 (lit ")), ")) by no_zero. assert (Z8 : ~ In 0 (lit "'")) by no_zero.
  assert (Z9 : ~ In 0 (lit ",")) by no_zero.
  assert (Names : forall nfs fs, map (fun f : np_field np_dtype => (npf_name f, fold_right DArray (np_meaning (npf_type f)) (npf_shape f))) nfs = map (fun f : text * dtype => (fst f, normal (snd f))) fs ->
            map npf_name nfs = map fst fs).
  { intros nfs fs E. apply (f_equal (map fst)) in E. rewrite !map_map in E. exact E. }
  apply dtype_text_all.
  - intros t s Hs Hc. pose proof (canonical_unique _ _ Hs Hc) as E. pose proof (display_chars t) as Hd. rewrite <- E in Hd. exists (VString s).
    split; [ apply plain_literal; eapply Forall_impl; [ | exact Hd ]; cbn; tauto | ].
    split; [ intros _ _; destruct (type_loads s t Hs Hc) as (nd & H & _); eauto | ].
    split; [ intros nd H; split; [ now apply plain_agree with (s := s) | split; exact I ] | ].
    rewrite !not_in_app. assert (~ In 0 s) by (intros Hi; rewrite Forall_forall in Hd; specialize (Hd 0 Hi); tauto). cbn [no_null all_records]. unfold no_null. cbn [all_records]. tauto.
  - intros fs body _ (vs & L & H1 & H2 & H3). exists (VList vs). split; [ apply (lit_list []); [ apply no_space | exact L ] | ].
    unfold distinct_names, named, no_null in *. split; [ | split ].
    + rewrite !all_record. intros (D1 & D2) (N1 & N2). destruct (H1 D2 N2) as (nfs & Hn). exists (NpRecord nfs). pose proof (Names _ _ (proj1 (H2 _ Hn))) as E. constructor; [ exact Hn | exact (eq_ind_r (@NoDup text) D1 E) | ].
      apply (proj1 (Forall_map npf_name (fun name : text => name <> []) nfs)). exact (eq_ind_r (Forall (fun name : text => name <> [])) N1 E).
    + intros nd Hn. inversion Hn as [ | ? nfs Hf Hd He ]; subst. destruct (H2 _ Hf) as (E & E1 & E2). pose proof (Names _ _ E) as E'. split; [ cbn [np_meaning normal]; now f_equal | ]. rewrite !all_record.
      split; [ split; [ exact (eq_ind _ (@NoDup text) Hd _ E') | exact E1 ] | split; [ | exact E2 ] ].
      apply (eq_ind _ (Forall (fun name : text => name <> [])) (proj2 (Forall_map npf_name (fun name : text => name <> []) nfs) He) _ E').
    + rewrite all_record, !not_in_app, H3. tauto.
  - exists []. split; [ apply sequence_end | ]. split; [ intros _ _; exists []; constructor | ]. split; [ intros nfs H; inversion H; subst; repeat split; constructor | ].
    cbn. repeat split; auto.
  - intros name ty t fs rest Hty (v & L & A1 & A2 & A3) _ (vs & S & B1 & B2 & B3). exists (VTuple [VString name; v] :: vs). split; [ | split; [ | split ] ].
    + replace ((lit "(" ++ quoted name ++ lit ", " ++ t ++ lit "), " ++ rest) ++ lit "]") with ((lit "(" ++ [] ++ quoted name ++ [] ++ lit "," ++ lit " " ++ t ++ [] ++ [chr ")"]) ++ [] ++ lit "," ++ lit " " ++ rest ++ lit "]")
        by (change (lit "), ") with ([chr ")"] ++ lit "," ++ lit " "); change (lit ", ") with (lit "," ++ lit " "); rewrite <- !app_assoc; reflexivity).
      apply sequence_more; auto using no_space, one_space. apply lit_tuple; auto using no_space, one_space, quoted_literal. apply (sequence_last (chr ")") t v []); auto using no_space.
    + intros D N. apply Forall_cons_iff in D as (D1 & D2), N as (N1 & N2). destruct (A1 D1 N1) as (nd & Hnd), (B1 D2 N2) as (nfs & Hn). eexists. apply np_fields_pair; eauto.
    + intros nfs Hn. inversion Hn as [ | ? ? nd ? nfs' Hnd Hn' | ]; subst. destruct (A2 _ Hnd) as (E & E1 & E2), (B2 _ Hn') as (F & F1 & F2).
      cbn [map fst snd npf_name npf_type npf_shape fold_right]. rewrite E, F. repeat split; auto.
    + rewrite !not_in_app, quoted_null, A3, B3. cbn [map fst]. rewrite !Forall_cons_iff. cbn [snd]. tauto.
  - intros name shape ty t sh fs rest Hne Hty (v & L & A1 & A2 & A3) Hl _ (vs & S & B1 & B2 & B3). exists (VTuple [VString name; v; np_tuple shape] :: vs). split; [ | split; [ | split ] ].
    + assert (Lsh : literal (lit "(" ++ sh ++ lit ")") (np_tuple shape)) by (apply (listed_literal []); [ apply no_space | exact Hl ]).
      replace ((lit "(" ++ quoted name ++ lit ", " ++ t ++ lit ", (" ++ sh ++ lit ")), " ++ rest) ++ lit "]")
        with ((lit "(" ++ [] ++ quoted name ++ [] ++ lit "," ++ lit " " ++ (t ++ [] ++ lit "," ++ lit " " ++ ((lit "(" ++ sh ++ lit ")") ++ [] ++ [chr ")"]))) ++ [] ++ lit "," ++ lit " " ++ rest ++ lit "]")
        by (change (lit ")), ") with (lit ")" ++ [chr ")"] ++ lit "," ++ lit " "); change (lit ", (") with (lit "," ++ lit " " ++ lit "("); change (lit ", ") with (lit "," ++ lit " "); rewrite <- !app_assoc; reflexivity).
      apply sequence_more; auto using no_space, one_space. apply lit_tuple; auto using no_space, one_space, quoted_literal.
      apply sequence_more; auto using no_space, one_space. apply (sequence_last (chr ")") _ _ []); auto using no_space.
    + intros D N. apply Forall_cons_iff in D as (D1 & D2), N as (N1 & N2). cbn [snd] in *. unfold distinct_names, named in *. rewrite all_wrap in D1, N1.
      destruct (A1 D1 N1) as (nd & Hnd), (B1 D2 N2) as (nfs & Hn). eexists. apply np_fields_triple; eauto.
    + intros nfs Hn. inversion Hn as [ | | ? ? nd shape' ? nfs' Hnd Hn' E0 ]; subst.
      assert (shape' = shape) as -> by (apply np_tuple_inj; unfold np_tuple; congruence).
      destruct (A2 _ Hnd) as (E & E1 & E2), (B2 _ Hn') as (F & F1 & F2).
      cbn [map fst snd npf_name npf_type npf_shape]. rewrite E, F, normal_wrap. unfold distinct_names, named in *. split; [ reflexivity | ]. split; (constructor; [ cbn [snd]; now rewrite all_wrap | auto ]).
    + rewrite !not_in_app, quoted_null, A3, B3. cbn [map fst]. rewrite !Forall_cons_iff. cbn [snd]. unfold no_null. rewrite all_wrap.
      assert (~ In 0 sh) by (eapply listed_null; [ | exact Hl ]; exact Z9). tauto.
Qed.

(** Files. *)
Definition dict_text (dt sh : text) (o : order) : text :=
  lit "{'descr': " ++ dt ++ lit ", 'fortran_order': " ++ (match o with OrderC => lit "False" | OrderFortran => lit "True" end) ++ lit ", 'shape': (" ++ sh ++ lit "), }".
Definition dict_pairs (v : value) (o : order) (shape : list N) : list (value * value) :=
  [(VString (lit "descr"), v); (VString (lit "fortran_order"), VBool (match o with OrderC => false | OrderFortran => true end)); (VString (lit "shape"), np_tuple shape)].
Lemma three_literal s1 v1 s2 v2 s3 v3 : literal s1 v1 -> literal s2 v2 -> literal s3 v3 ->
  literal (lit "{'descr': " ++ s1 ++ lit ", 'fortran_order': " ++ s2 ++ lit ", 'shape': " ++ s3 ++ lit ", }")
    (VDict [(VString (lit "descr"), v1); (VString (lit "fortran_order"), v2); (VString (lit "shape"), v3)]).
Proof.
  intros L1 L2 L3.
  assert (K1 := quoted_literal (lit "descr")). assert (K2 := quoted_literal (lit "fortran_order")). assert (K3 := quoted_literal (lit "shape")).
  change (quoted (lit "descr")) with (lit "'descr'") in K1. change (quoted (lit "fortran_order")) with (lit "'fortran_order'") in K2. change (quoted (lit "shape")) with (lit "'shape'") in K3.
  change (lit "{'descr': ") with (lit "{" ++ [] ++ lit "'descr'" ++ [] ++ lit ":" ++ lit " "). change (lit ", 'fortran_order': ") with ([] ++ lit "," ++ lit " " ++ lit "'fortran_order'" ++ [] ++ lit ":" ++ lit " ").
  change (lit ", 'shape': ") with ([] ++ lit "," ++ lit " " ++ lit "'shape'" ++ [] ++ lit ":" ++ lit " "). change (lit ", }") with ([] ++ lit "," ++ lit " " ++ lit "}").
  rewrite <- !app_assoc. apply lit_dict; [ apply no_space | ]. repeat (apply entries_more; auto using no_space, one_space). constructor.
Qed.
Lemma dict_literal dt sh o v shape : literal dt v -> literal (lit "(" ++ sh ++ lit ")") (np_tuple shape) -> literal (dict_text dt sh o) (VDict (dict_pairs v o shape)).
Proof.
  intros L1 L3. unfold dict_text, dict_pairs.
  assert (L2 : literal (match o with OrderC => lit "False" | OrderFortran => lit "True" end) (VBool (match o with OrderC => false | OrderFortran => true end))) by (destruct o; constructor).
  pose proof (three_literal _ _ _ _ _ _ L1 L2 L3) as X. rewrite <- !app_assoc in X. exact X.
Qed.
Lemma dict_last v o shape : last_value (lit "descr") (dict_pairs v o shape) v
  /\ last_value (lit "fortran_order") (dict_pairs v o shape) (VBool (match o with OrderC => false | OrderFortran => true end)) /\ last_value (lit "shape") (dict_pairs v o shape) (np_tuple shape).
Proof.
  unfold dict_pairs. split; [ | split ].
  - exists [], (tl (dict_pairs v o shape)). split; [ reflexivity | ]. cbn. intros [ E | [ E | [] ] ]; discriminate.
  - exists [(VString (lit "descr"), v)], [(VString (lit "shape"), np_tuple shape)]. split; [ reflexivity | ]. cbn. intros [ E | [] ]; discriminate.
  - exists (firstn 2 (dict_pairs v o shape)), []. split; [ reflexivity | ]. cbn. tauto.
Qed.
Lemma utf8_ascii_back s : Forall (fun b => b < 128) (utf8_string s) -> Forall (fun ch => ch < 128) s.
Proof.
  induction s as [ | c s IH ]; intros H; [ constructor | ]. change (utf8_string (c :: s)) with (utf8_octets c ++ utf8_string s) in H. apply Forall_app in H as (H1 & H2).
  constructor; [ | auto ]. destruct (N.ltb_spec c 128) as [ | Hc ]; [ assumption | exfalso ]. destruct (octets_high c Hc) as (Hh & _). pose proof (octets_nonempty c) as Hne.
  destruct (utf8_octets c) as [ | b bs ]; [ congruence | ]. apply Forall_inv in H1, Hh. lia.
Qed.
(** The header of a finished file, as text. *)
Lemma finished_text d o h shape payload file : wf_dtype d -> finished_file d o h shape payload file ->
  exists major len dt sh n v, let src := dict_text dt sh o ++ repeatN 32 n ++ [10] in
    file = [0x93] ++ lit "NUMPY" ++ [major; 0] ++ len ++ utf8_string src ++ payload /\ (major = 1 \/ major = 2 \/ major = 3)
    /\ lenN len = (if major =? 1 then 2 else 4) /\ little_endian len = lenN (utf8_string src)
    /\ Forall (fun ch => scalar_value ch = true) src /\ (major <> 3 -> Forall (fun ch => ch < 128) src)
    /\ dtype_text d dt /\ literal dt v /\ literal (dict_text dt sh o) (VDict (dict_pairs v o shape)) /\ ~ In 0 sh
    /\ (distinct_names d -> named d -> exists nd, np_type v nd)
    /\ (forall nd, np_type v nd -> np_meaning nd = normal d /\ distinct_names d /\ named d) /\ (~ In 0 dt <-> no_null d).
Proof.
  intros Hwf (sh & reserve & Hsh & [ dt dict sp major len Hdt Hdict Hsp Hmaj Hlen Hlb Hle _ ]).
  destruct (proj1 text_loads _ _ Hdt) as (v & L & A1 & A2 & A3). fold (dict_text dt sh o) in Hdict.
  assert (Hs0 : ~ In 0 sh).
  { clear - Hsh. destruct Hsh as [ ? ? ? H | ? ? ? H | ? ? ? ? H1 H2 | ? ? ? ? H1 H2 ]; [ eapply listed_null; [ | exact H ]; no_zero | | | ];
      rewrite !not_in_app; repeat split; eauto using numeral_null; no_zero. }
  assert (Hscd : Forall (fun ch => scalar_value ch = true) dt).
  { rewrite (proj1 text_unique _ _ Hdt). pose proof (descr_parts_scalars d Hwf) as X. eapply Forall_impl; [ | exact X ]. auto. }
  assert (Hscs : Forall (fun ch => ch < 128) sh).
  { clear - Hsh. assert (N0 : forall ds n, shortest_numeral ds n -> Forall (fun ch => ch < 128) ds) by (intros ds n (H & _); eapply Forall_impl; [ | exact H ]; cbn; intros; lia).
    destruct Hsh as [ ? ? ? H | ? ? ? H | ? ? ? ? H1 H2 | ? ? ? ? H1 H2 ]; [ | | | ].
    - induction H; [ constructor | ]. repeat (apply Forall_app; split); eauto. repeat constructor.
    - apply Forall_app; split; eauto. repeat constructor.
    - repeat (apply Forall_app; split); eauto. repeat constructor.
    - repeat (apply Forall_app; split); eauto. repeat constructor. }
  assert (Hsc : Forall (fun ch => scalar_value ch = true) (dict_text dt sh o)).
  { unfold dict_text. repeat (apply Forall_app; split); auto using ascii_scalar; try (apply ascii_scalar; repeat constructor); destruct o; repeat constructor. }
  set (n := reserve + sp) in *.
  assert (Hu : utf8_string (dict_text dt sh o ++ repeatN 32 n ++ [10]) = dict ++ repeatN 32 n ++ [10]).
  { rewrite !utf8_app, Hdict. f_equal. f_equal. apply blanks_utf8. apply spaces_blank. }
  exists major, len, dt, sh, n, v. cbn zeta. rewrite Hu. split; [ rewrite <- !app_assoc; reflexivity | ].
  split; [ rewrite Hmaj; destruct (existsb _ dict); [ auto | ]; destruct (_ <=? _); auto | ]. split; [ exact Hlen | ].
  split; [ rewrite Hle, !lenN_app, lenN_repeatN; unfold n; change (lenN [10]) with 1; lia | ].
  split; [ apply Forall_app; split; [ exact Hsc | apply ascii_scalar, Forall_app; split; [ apply spaces_ascii | repeat constructor ] ] | ].
  split.
  { intros Hm. apply Forall_app; split; [ | apply Forall_app; split; [ apply spaces_ascii | repeat constructor ] ]. apply utf8_ascii_back. rewrite <- Hdict.
    destruct (existsb (fun b => 128 <=? b) dict) eqn:Ee; [ congruence | ]. apply Forall_forall. intros b Hb. destruct (N.ltb_spec b 128) as [ | Hge ]; [ assumption | ].
    assert (existsb (fun b => 128 <=? b) dict = true) by (apply existsb_exists; exists b; split; [ exact Hb | now apply N.leb_le ]). congruence. }
  split; [ exact Hdt | ]. split; [ exact L | ]. split; [ apply dict_literal; [ exact L | eapply shape_literal; eauto ] | ]. auto.
Qed.
Lemma written_loads d o h shape payload file : wf_dtype d -> finished_file d o h shape payload file -> distinct_names d -> named d -> no_null d ->
  exists major src nd, np_loads major src nd (match o with OrderC => false | OrderFortran => true end) shape payload file.
Proof.
  intros Hwf Hf Hd Hn H0. destruct (finished_text _ _ _ _ _ _ Hwf Hf) as (major & len & dt & sh & n & v & E & Hm & Hl & Hle & Hsc & Has & Hdt & L & LD & S0 & A1 & A2 & A3).
  destruct (A1 Hd Hn) as (nd & Hnd). set (src := dict_text dt sh o ++ repeatN 32 n ++ [10]) in *. exists major, src, nd.
  exists len, (utf8_string src), (VDict (dict_pairs v o shape)), (dict_pairs v o shape), v.
  split; [ exact E | ]. split; [ exact Hl | ]. split; [ exact Hle | ].
  split; [ destruct (N.eq_dec major 3) as [ -> | H3 ]; [ right; auto | left; split; [ lia | symmetry; apply utf8_ascii; auto ] ] | ].
  split.
  { unfold src, dict_text. rewrite !not_in_app. apply A3 in H0. repeat split; auto; try no_zero; [ destruct o; no_zero | ].
    intros Hi. pose proof (spaces_ascii n) as X. clear - Hi. unfold repeatN in Hi. apply repeat_spec in Hi. discriminate. }
  split; [ right; exists (dict_text dt sh o ++ repeatN 32 n); split; [ unfold src; now rewrite app_assoc | ]; exists [], (dict_text dt sh o), (repeatN 32 n); repeat split; auto using no_space; apply spaces_blank | ].
  split; [ reflexivity | ]. split; [ unfold dict_pairs; repeat constructor; cbn; tauto | ].
  destruct (dict_last v o shape) as (X1 & X2 & X3). auto.
Qed.
Lemma written_exact d o h shape payload file major src nd fortran shape' data : wf_dtype d -> finished_file d o h shape payload file ->
  np_loads major src nd fortran shape' data file ->
  np_meaning nd = normal d /\ np_order fortran = o /\ shape' = shape /\ data = payload /\ distinct_names d /\ named d /\ no_null d.
Proof.
  intros Hwf Hf Hl. destruct (finished_text _ _ _ _ _ _ Hwf Hf) as (major0 & len & dt & sh & n & v & E & Hm & Hlen & Hle & Hsc & Has & Hdt & L & LD & S0 & A1 & A2 & A3).
  remember (dict_text dt sh o ++ repeatN 32 n ++ [10]) as src0 eqn:Esrc. cbn zeta in *.
  assert (Hsrc : major = major0 /\ src = src0).
  { destruct Hl as (len' & txt & v' & pairs & dv & E' & H1 & H2 & H3 & _). rewrite E in E'. cbn [app lit] in E'. injection E' as -> E'. symmetry in E'.
    apply app_inj_lenN in E' as (-> & E'); [ | congruence ]. apply app_inj_lenN in E' as (-> & _); [ | congruence ].
    split; [ reflexivity | ]. destruct H3 as [ (Hv & ->) | (-> & Hs & Ht) ]; [ apply utf8_ascii, Has; lia | now apply utf8_string_inj ]. }
  destruct Hsrc as (-> & ->).
  assert (Hr0 : run read_header file = (Ok (VDict (dict_pairs v o shape)), payload)).
  { assert (Hp : preamble_of ([0x93] ++ lit "NUMPY" ++ [major0; 0] ++ len ++ utf8_string src0) (utf8_string src0)) by (exists major0, len; auto).
    assert (Ef : file = ([0x93] ++ lit "NUMPY" ++ [major0; 0] ++ len ++ utf8_string src0) ++ payload) by (rewrite E, <- !app_assoc; reflexivity).
    rewrite Ef, (read_header_preamble _ _ _ Hp). f_equal. apply header_text_exact; [ now apply utf8_bytes | ].
    exists (dict_text dt sh o ++ repeatN 32 n). assert (Es : src0 = (dict_text dt sh o ++ repeatN 32 n) ++ [10]) by (rewrite Esrc; now rewrite app_assoc).
    split; [ rewrite Es in Hsc; now apply Forall_app in Hsc as (? & _) | ]. split; [ right; rewrite Es, utf8_app; reflexivity | ].
    exists [], (dict_text dt sh o), (repeatN 32 n). repeat split; auto using no_space; apply spaces_blank. }
  assert (Ha : major0 = 3 \/ Forall (fun ch => ch < 128) src0) by (destruct (N.eq_dec major0 3); auto).
  destruct (loads_header _ _ _ _ _ _ _ Hl Ha) as (pairs & dv & Hh & L1 & L2 & L3 & L4).
  rewrite Hr0 in Hh. apply pair_inj in Hh as (Hh & <-). apply Ok_inj in Hh. injection Hh as <-.
  destruct (dict_last v o shape) as (X1 & X2 & X3). pose proof (last_unique _ _ _ _ L1 X1) as ->. pose proof (last_unique _ _ _ _ L3 X2) as E3. injection E3 as ->.
  pose proof (np_tuple_inj _ _ (last_unique _ _ _ _ L4 X3)) as ->. destruct (A2 _ L2) as (B1 & B2 & B3).
  split; [ exact B1 | ]. split; [ destruct o; reflexivity | ]. repeat (split; [ auto; reflexivity | ]). apply A3.
  destruct Hl as (_ & _ & _ & _ & _ & _ & _ & _ & _ & H0 & _). intros Hi. apply H0. rewrite Esrc; unfold dict_text. rewrite !in_app_iff. auto 10.
Qed.

(** * Structs *)
Lemma rust_struct fs : rust_names (RStruct fs) <-> NoDup (map fst fs) /\ Forall (fun name : text => name <> [] /\ ~ In 0 name) (map fst fs) /\ Forall (fun f => rust_names (snd f)) fs.
Proof.
  cbn [rust_names]. assert (E : forall l : list (text * rty), (fix go (fs : list (text * rty)) : Prop := match fs with [] => True | f :: fs' => rust_names (snd f) /\ go fs' end) l
    <-> Forall (fun f => rust_names (snd f)) l).
  { induction l as [ | f l IH ]; [ split; auto | ]. rewrite Forall_cons_iff, IH. reflexivity. }
  now rewrite E.
Qed.
Lemma accepted_names u dir t : forall d, accepts u dir t d -> rust_names t -> distinct_names d /\ named d /\ no_null d.
Proof.
  unfold distinct_names, named, no_null.
  induction t as [ t Ha Hs | n t IH | fs IH ] using rty_rect'; intros d H Hn.
  - destruct d as [ ts | m d | ds ]; [ repeat split | exfalso; destruct t; cbn in H; try contradiction; now eapply Ha | exfalso; destruct t; cbn in H; try contradiction; now eapply Hs ].
  - destruct d as [ ts | m d | ds ]; cbn [accepts] in H; [ cbn in H; tauto | | contradiction ]. cbn [all_records]. apply IH; [ tauto | exact Hn ].
  - destruct d as [ ts | m d | ds ]; [ cbn in H; tauto | contradiction | ]. pose proof (accepts_names _ _ _ _ H) as E. apply rust_struct in Hn as (N1 & N2 & N3). rewrite !all_record.
    assert (K : Forall (fun f => all_records (@NoDup text) (snd f) /\ all_records (Forall (fun name : text => name <> [])) (snd f) /\ all_records (Forall (fun name : text => ~ In 0 name)) (snd f)) ds).
    { clear E N1 N2. cbn [accepts] in H. revert ds H. induction fs as [ | (a, t) fs IHfs ]; intros [ | (b, d) ds ] H; try contradiction; [ constructor | ].
      destruct H as (_ & H1 & H2). apply Forall_cons_iff in IH as (IH1 & IH2), N3 as (N31 & N32). constructor; [ cbn [snd] in *; now apply IH1 | now apply IHfs ]. }
    assert (M1 := eq_ind _ (@NoDup text) N1 _ E). assert (M2 := eq_ind _ (Forall (fun name : text => name <> [] /\ ~ In 0 name)) N2 _ E).
    split; [ split; [ exact M1 | eapply Forall_impl; [ | exact K ]; cbn; tauto ] | ].
    split; (split; [ eapply Forall_impl; [ | exact M2 ]; cbn; tauto | eapply Forall_impl; [ | exact K ]; cbn; tauto ]).
Qed.
Lemma structs_load c t d o h vs s s' : wf_dtype d -> Forall (has_type t) vs -> lenN vs < 2 ^ 64 -> hint_ok h -> rust_names t -> sk_data s = [] -> sk_pos s = 0 ->
  write_file c t d o h (output_kind h) vs s = (Ok tt, s') ->
  exists shape payload, final_shape h o (lenN vs) = Some shape /\ encodings t d vs payload
  /\ (exists major src nd fortran, np_loads major src nd fortran shape payload (sk_data s'))
  /\ forall major src nd fortran shape' data, np_loads major src nd fortran shape' data (sk_data s') ->
       np_meaning nd = normal d /\ np_order fortran = o /\ shape' = shape /\ data = payload.
Proof.
  intros Hwf Hvs Hn Hh Hr E1 E2 H. assert (Ha : accepts (c_usize_max c) Writing t d).
  { unfold write_file, sbind in H. destruct (begin_ c t d o h (output_kind h) s) as ([ w | e | ], s1) eqn:Eb; try discriminate.
    apply begin_ok_inv in Eb as (_ & dict & pad & hdr' & props & info & tw & _ & _ & _ & Hw & _). apply writer_accepts. eauto. }
  destruct (file_exact _ _ _ _ _ _ _ _ Hwf Hvs Hn Hh H) as (shape & payload & file & F1 & F2 & F3 & F4).
  assert (F : sk_data s' = file).
  { unfold placed in F4. rewrite E1, E2 in F4. rewrite F4. change (0 - lenN (@nil N)) with 0. change (repeatN 0 0) with (@nil N). unfold takeN, dropN. rewrite firstn_nil, skipn_nil. now rewrite app_nil_r. }
  rewrite F. destruct (accepted_names _ _ _ _ Ha Hr) as (N1 & N2 & N3). exists shape, payload. split; [ exact F1 | ]. split; [ exact F2 | ].
  split; [ destruct (written_loads _ _ _ _ _ _ Hwf F3 N1 N2 N3) as (major & src & nd & HL); eauto | ].
  intros major src nd fortran shape' data HL. destruct (written_exact _ _ _ _ _ _ _ _ _ _ _ _ Hwf F3 HL) as (A & B & C & D & _). auto.
Qed.
Lemma loads_exactly d o h shape payload file : wf_dtype d -> finished_file d o h shape payload file -> named d ->
  (exists major src nd fortran shape' data, np_loads major src nd fortran shape' data file) <-> distinct_names d /\ no_null d.
Proof.
  intros Hwf Hf Hn. split.
  - intros (major & src & nd & fortran & shape' & data & HL). destruct (written_exact _ _ _ _ _ _ _ _ _ _ _ _ Hwf Hf HL) as (_ & _ & _ & _ & A & _ & B). auto.
  - intros (A & B). destruct (written_loads _ _ _ _ _ _ Hwf Hf A Hn B) as (major & src & nd & HL). eauto 10.
Qed.

(** * Marks that mean nothing *)
Lemma normal_size d : size (normal d) = size d.
Proof.
  induction d as [ t | n d IH | fs IH ] using dtype_rect'; [ reflexivity | cbn [normal size]; now rewrite IH | ]. cbn [normal]. rewrite !size_record.
  induction IH as [ | (name, d) fs H _ IHfs ]; [ reflexivity | ]. cbn [map fst snd size_fields] in *. now rewrite H, IHfs.
Qed.
Lemma number_one e v : number e 1 v = number Irrelevant 1 v.
Proof. destruct e; reflexivity. Qed.
Lemma number_of_one e bs : lenN bs = 1 -> number_of e bs = number_of Irrelevant bs.
Proof. destruct bs as [ | b [ | b' bs ] ]; intros H; [ discriminate | destruct e; reflexivity | exfalso; revert H; rewrite !lenN_cons; lia ]. Qed.
Lemma normal_encode u dir t : forall d v, accepts u dir t d -> encode t (normal d) v = encode t d v.
Proof.
  induction t as [ t Ha Hs | n t IH | fs IH ] using rty_rect'; intros d v H.
  - destruct d as [ [ e ch sz un ] | m d | ds ]; [ | destruct t; try reflexivity; exfalso; now eapply Ha | destruct t; try reflexivity; exfalso; now eapply Hs ].
    destruct t; try (exfalso; now eapply Ha); try (exfalso; now eapply Hs); try reflexivity; cbn in H; destruct H as (H & _); cbn [normal normal_type ts_char ts_size ts_endianness ts_units].
    all: cbn [encode]; destruct v; try reflexivity; cbn [ts_char ts_size ts_endianness ts_units].
    1: { destruct signed.
      * destruct H as (-> & [ -> | (-> & [ -> | -> ]) ]); try reflexivity. destruct w; try reflexivity. cbn [int_bytes N.eqb Pos.eqb]. now rewrite (number_one e).
      * destruct H as (-> & ->). destruct w; try reflexivity. cbn [int_bytes N.eqb Pos.eqb]. now rewrite (number_one e). }
    1, 2: destruct H as (-> & ->); reflexivity.
    all: repeat match goal with H : _ \/ _ |- _ => destruct H as [ H | H ] | H : _ /\ _ |- _ => destruct H as (H & _) end; now rewrite H.
  - destruct d as [ ts | m d | ds ]; [ reflexivity | | reflexivity ]. destruct H as (_ & H). cbn [normal]. destruct v; try reflexivity. rewrite !encode_array.
    induction l as [ | x l IHl ]; [ reflexivity | ]. cbn [encode_seq]. rewrite (IH _ x H). now rewrite IHl.
  - destruct d as [ ts | m d | ds ]; [ reflexivity | reflexivity | ]. rewrite accepts_struct in H. cbn [normal]. destruct v as [ | | | | | | | | l ]; try reflexivity. rewrite !encode_struct.
    revert ds l H. induction IH as [ | (name, t) fs Ht _ IHfs ]; intros [ | (name', d) ds ] l H; try contradiction; [ reflexivity | ].
    destruct H as (_ & H1 & H2). destruct l as [ | x l ]; [ reflexivity | ]. cbn [map fst snd encode_fields] in *. rewrite (Ht _ x H1). specialize (IHfs ds l H2). now rewrite IHfs.
Qed.
Lemma normal_decode u dir t : forall d bs, accepts u dir t d -> lenN bs = size d -> bytes_ok bs -> decode t (normal d) bs = decode t d bs.
Proof.
  induction t as [ t Ha Hs | n t IH | fs IH ] using rty_rect'; intros d bs H Hb Hk.
  - destruct d as [ [ e ch sz un ] | m d | ds ]; [ | destruct t; try reflexivity; exfalso; now eapply Ha | destruct t; try reflexivity; exfalso; now eapply Hs ].
    unfold size, scalar_size in Hb. cbn [ts_char ts_size] in Hb.
    destruct t; try (exfalso; now eapply Ha); try (exfalso; now eapply Hs); try reflexivity; cbn in H; destruct H as (H & _); cbn [normal normal_type ts_char ts_size ts_endianness ts_units].
    all: cbn [decode]; cbn [ts_char ts_size ts_endianness ts_units].
    1: { destruct signed.
      * destruct H as (-> & [ -> | (-> & [ -> | -> ]) ]); try reflexivity. destruct w; try reflexivity. cbn [int_bytes N.eqb Pos.eqb] in *. now rewrite (number_of_one e).
      * destruct H as (-> & ->). destruct w; try reflexivity. cbn [int_bytes N.eqb Pos.eqb] in *. now rewrite (number_of_one e). }
    1, 2: destruct H as (-> & ->); reflexivity.
    all: repeat match goal with H : _ \/ _ |- _ => destruct H as [ H | H ] | H : _ /\ _ |- _ => destruct H as (H & _) end; now rewrite H.
  - destruct d as [ ts | m d | ds ]; [ reflexivity | | reflexivity ]. destruct H as (<- & H). cbn [normal decode size] in *. rewrite normal_size. f_equal. f_equal.
    apply map_ext_in. intros x Hx. apply pieces_in in Hx as (Hx & Hx'); [ | rewrite N2Nat.id; exact Hb | exact Hk ]. now apply IH.
  - destruct d as [ ts | m d | ds ]; [ reflexivity | reflexivity | ]. rewrite accepts_struct in H. rewrite size_record in Hb. cbn [normal]. rewrite !decode_struct. f_equal.
    revert ds bs H Hb Hk. induction IH as [ | (name, t) fs Ht _ IHfs ]; intros [ | (name', d) ds ] bs H Hb Hk; try contradiction; [ reflexivity | ].
    destruct H as (_ & H1 & H2). cbn [map fst snd decode_fields size_fields] in *. rewrite normal_size.
    rewrite (Ht d (takeN (size d) bs) H1); [ | rewrite lenN_takeN; lia | now apply Forall_takeN ]. rewrite (IHfs ds (dropN (size d) bs) H2); [ reflexivity | rewrite lenN_dropN; lia | now apply Forall_dropN ].
Qed.

(** * NumPy reads what NumPy writes *)
Lemma np_type_value d : np_ok d -> np_regular d -> np_type (np_value d) d.
Proof.
  induction d as [ big s | fs IH ] using np_dtype_rect'; intros Hok Hr.
  - cbn [np_value]. unfold np_str. assert (exists mark, In mark ["<"; ">"; "|"]%string /\ np_mark big s = lit mark) as (mark & Hm & E).
    { destruct s as [ | sg n | | | | | | | ]; cbn [np_mark]; try (exists "|"%string; cbn; tauto);
        try (destruct big; [ exists ">"%string | exists "<"%string ]; cbn; tauto).
      destruct n as [ | [ n | n | ] ]; try (exists "|"%string; cbn; tauto); destruct big; ((exists ">"%string; cbn; tauto) || (exists "<"%string; cbn; tauto)). }
    rewrite E. constructor; auto.
  - cbn [np_value]. change (map _ fs) with (map np_descr_field fs). cbn [np_regular] in Hr. destruct Hr as (R1 & R2 & R3). constructor; [ | exact R1 | eapply Forall_impl; [ | exact R2 ]; cbn; tauto ].
    clear R1. cbn [np_ok] in Hok. induction IH as [ | f fs Hf _ IHf ]; cbn [map]; [ constructor | ].
    destruct Hok as ((H1 & H2 & H3 & H4) & H5). destruct R3 as (R3 & R4). apply Forall_cons_iff in R2 as ((_ & R2) & R2').
    specialize (Hf H4 R3). specialize (IHf H5 R2' R4). destruct f as [ ti na ty sh ]. cbn [npf_title npf_name npf_type npf_shape] in *. subst ti. unfold np_descr_field. cbn [npf_title npf_name npf_type npf_shape].
    destruct sh as [ | n sh ]; [ now apply np_fields_pair | now apply np_fields_triple ].
Qed.
Lemma repr_string_null p s : Forall (fun c => c <> 0) (repr_string p s).
Proof.
  unfold repr_string. pose proof (repr_quote_ok s) as Hq. assert (Hq0 : repr_quote s <> 0) by (destruct Hq as [ -> | -> ]; discriminate).
  repeat (apply Forall_app; split); auto. apply Forall_flat_map. apply Forall_forall. intros c _.
  assert (HH : forall k n, Forall (fun x => x <> 0) (hex_text k n)).
  { intros k. induction k as [ | k IH ]; intros n; [ constructor | ]. cbn [hex_text]. apply Forall_app. split; auto. constructor; [ | constructor ].
    unfold hex_char. destruct (N.ltb_spec (n mod 16) 10); lia. }
  unfold repr_char. destruct ((c =? 92) || (c =? repr_quote s)) eqn:E0; [ assert (c <> 0) by (destruct Hq; lia); repeat (constructor; auto); discriminate | ].
  destruct (c =? 9); [ repeat constructor; discriminate | ]. destruct (c =? 10); [ repeat constructor; discriminate | ]. destruct (c =? 13); [ repeat constructor; discriminate | ].
  destruct ((c <? 32) || (c =? 127)) eqn:E1; [ repeat (constructor; auto); discriminate | ].
  destruct ((c <? 127) || p c); [ constructor; [ lia | constructor ] | ]. destruct (c <? 256); [ repeat (constructor; auto); discriminate | ].
  destruct (c <? 65536); repeat (constructor; auto); discriminate.
Qed.
Lemma np_header_null p d fortran shape : ~ In 0 (np_header p d fortran shape).
Proof.
  assert (H : Forall (fun c => c <> 0) (np_header p d fortran shape)).
  { apply np_header_all; [ intros c Hc; lia | ]. apply (np_texts _ (fun _ => True)); auto using repr_string_null. intros fs _. apply Forall_forall. intros f _. repeat split; intros; apply repr_string_null. }
  intros Hi. rewrite Forall_forall in H. now apply (H 0).
Qed.
Lemma numpy_round p major d fortran shape data file : np_ok d -> np_regular d -> np_file p major d fortran shape data file -> exists src, np_loads major src d fortran shape data file.
Proof.
  intros Hok Hr Hf. destruct Hf as (txt & pad & len & He & H1 & H2 & H3 & ->). set (H := np_header p d fortran shape) in *.
  exists (H ++ repeatN 32 pad ++ [10]), len, (txt ++ repeatN 32 pad ++ [10]), (np_dict d fortran shape), 
    [(VString (lit "descr"), np_value d); (VString (lit "fortran_order"), VBool fortran); (VString (lit "shape"), np_tuple shape)], (np_value d).
  split; [ rewrite <- !app_assoc; reflexivity | ]. split; [ exact H1 | ]. split; [ rewrite H3, !lenN_app, lenN_repeatN; change (lenN [10]) with 1; lia | ].
  split.
  { destruct He as [ (Hm & _ & ->) | (-> & ->) ]; [ left; auto | right ]. split; [ reflexivity | ].
    split; [ apply Forall_app; split; [ now apply np_header_scalar | apply ascii_scalar, Forall_app; split; [ apply spaces_ascii | repeat constructor ] ] | ].
    rewrite !utf8_app. f_equal. f_equal. symmetry. apply blanks_utf8, spaces_blank. }
  split.
  { rewrite !not_in_app. split; [ apply np_header_null | ]. split; [ intros Hi; unfold repeatN in Hi; apply repeat_spec in Hi; discriminate | no_zero ]. }
  split; [ right; exists (H ++ repeatN 32 pad); split; [ now rewrite app_assoc | ]; exists [], H, (repeatN 32 pad); repeat split; auto using no_space, spaces_blank; now apply np_header_literal | ].
  split; [ reflexivity | ]. split; [ repeat constructor; cbn; tauto | ].
  assert (Hv := np_type_value d Hok Hr). split; [ | split; [ exact Hv | split ] ].
  - exists [], [(VString (lit "fortran_order"), VBool fortran); (VString (lit "shape"), np_tuple shape)]. split; [ reflexivity | ]. cbn. intros [ E | [ E | [] ] ]; discriminate.
  - exists [(VString (lit "descr"), np_value d)], [(VString (lit "shape"), np_tuple shape)]. split; [ reflexivity | ]. cbn. intros [ E | [] ]; discriminate.
  - exists [(VString (lit "descr"), np_value d); (VString (lit "fortran_order"), VBool fortran)], []. split; [ reflexivity | ]. cbn. tauto.
Qed.
