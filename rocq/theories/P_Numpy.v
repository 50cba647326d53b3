(** Files written by NumPy. *)
From Verif Require Import M_Base M_Text M_TypeStr M_PyLit M_IO M_Header M_Read M_Serialize M_NpyReader S_Text S_TypeStr S_Python S_DType S_Shape S_Header S_Elem S_Dict S_Open S_Archive S_Numpy
  P_Base P_Number P_Text P_TypeStr P_PyLit P_IO P_Interp P_Grammar P_Open P_Defect P_Fault P_Archive T_Text.
Open Scope N_scope.

(** * [repr] *)
Lemma no_space : spaces []. Proof. constructor. Qed.
Lemma one_space : spaces (lit " "). Proof. constructor; [ now left | constructor ]. Qed.
#[local] Hint Resolve no_space one_space : core.
Lemma hex_char_digit d : d < 16 -> digit (hex_char d) d.
Proof. intros H. unfold hex_char, digit. destruct (N.ltb_spec d 10); [ left | right; right ]; lia. Qed.
Lemma hex_text_len k : forall n, lenN (hex_text k n) = N.of_nat k.
Proof. induction k as [ | k IH ]; intros n; [ reflexivity | ]. cbn [hex_text]. rewrite lenN_app, IH. change (lenN [hex_char (n mod 16)]) with 1. lia. Qed.
Lemma hex_text_base k : forall n, n < 16 ^ N.of_nat k -> in_base 16 (hex_text k n) n.
Proof.
  induction k as [ | k IH ]; intros n Hn; [ cbn in Hn; replace n with 0 by lia; constructor | ]. cbn [hex_text].
  replace (N.of_nat (S k)) with (N.succ (N.of_nat k)) in Hn by lia. rewrite N.pow_succ_r' in Hn.
  pose proof (N.div_mod n 16 ltac:(lia)) as Hdm. pose proof (N.mod_lt n 16 ltac:(lia)) as Hm.
  replace n with (16 * (n / 16) + n mod 16) at 3 by lia. constructor; auto; [ | now apply hex_char_digit ].
  apply IH. apply N.div_lt_upper_bound; lia.
Qed.
Lemma repr_item p q c : quote q -> scalar_value c = true -> string_item false q (repr_char p q c) [c] /\ forall rest, octal_complete (repr_char p q c) rest.
Proof.
  intros Hq Hs. unfold repr_char, scalar_value in *.
  assert (Hhex : forall e k, In (e, N.of_nat k) hex_escapes -> c < 16 ^ N.of_nat k ->
            string_item false q (92 :: e :: hex_text k c) [c] /\ forall rest, octal_complete (92 :: e :: hex_text k c) rest).
  { intros e k He Hc. split.
    - apply (item_hex false q e (N.of_nat k)); auto; [ now apply hex_text_base | apply hex_text_len ].
    - apply octal_head. unfold octal_digit. cbn in He. decompose [or] He; try tauto; match goal with H : (_, _) = _ |- _ => injection H as <- ? end; vm_compute; intros (_ & X); now apply X. }
  destruct (N.eqb_spec c 92) as [ -> | H92 ].
  { cbn [orb]. split; [ apply (item_simple _ _ 92 92); cbn; tauto | apply octal_head; unfold octal_digit; lia ]. }
  destruct (N.eqb_spec c q) as [ -> | Hcq ].
  { cbn [orb]. split; [ apply (item_simple _ _ q q); destruct Hq as [ -> | -> ]; cbn; tauto | apply octal_head; unfold octal_digit; destruct Hq; lia ]. }
  cbn [orb].
  destruct (N.eqb_spec c 9) as [ -> | H9 ]; [ split; [ apply (item_simple _ _ (chr "t") 9); cbn; tauto | apply octal_head; unfold octal_digit; vm_compute; intros (_ & X); now apply X ] | ].
  destruct (N.eqb_spec c 10) as [ -> | H10 ]; [ split; [ apply (item_simple _ _ (chr "n") 10); cbn; tauto | apply octal_head; unfold octal_digit; vm_compute; intros (_ & X); now apply X ] | ].
  destruct (N.eqb_spec c 13) as [ -> | H13 ]; [ split; [ apply (item_simple _ _ (chr "r") 13); cbn; tauto | apply octal_head; unfold octal_digit; vm_compute; intros (_ & X); now apply X ] | ].
  destruct ((c <? 32) || (c =? 127)) eqn:E1; [ apply (Hhex _ 2%nat); [ cbn; tauto | change (16 ^ N.of_nat 2) with 256; lia ] | ].
  destruct ((c <? 127) || p c) eqn:E2.
  { split; [ apply item_raw; [ exact H92 | intros _; auto ] | ]. intros rest ds n x r H. injection H as H _. unfold backslash in H. congruence. }
  destruct (N.ltb_spec c 256); [ apply (Hhex _ 2%nat); [ cbn; tauto | change (16 ^ N.of_nat 2) with 256; lia ] | ].
  destruct (N.ltb_spec c 65536); [ apply (Hhex _ 4%nat); [ cbn; tauto | change (16 ^ N.of_nat 4) with 65536; lia ] | ].
  apply (Hhex _ 8%nat); [ cbn; tauto | change (16 ^ N.of_nat 8) with 4294967296; lia ].
Qed.
Lemma repr_rest p q s : quote q -> Forall (fun c => scalar_value c = true) s -> string_rest false q (flat_map (repr_char p q) s ++ [q]) s.
Proof.
  intros Hq H. induction H as [ | c s Hc _ IH ]; [ apply (string_end false q) | ]. cbn [flat_map]. rewrite <- app_assoc.
  destruct (repr_item p q c Hq Hc) as (H1 & H2). apply (string_more false q _ [c] _ s); auto. discriminate.
Qed.
Lemma repr_quote_ok s : quote (repr_quote s).
Proof. unfold repr_quote, quote. destruct (_ && _); auto. Qed.
Lemma repr_string_literal p s : Forall (fun c => scalar_value c = true) s -> string_literal (repr_string p s) s.
Proof.
  intros H. pose proof (repr_quote_ok s) as Hq. exists [], false, (repr_quote s), (flat_map (repr_char p (repr_quote s)) s ++ [repr_quote s]).
  split; [ reflexivity | ]. split; [ auto | ]. split; [ exact Hq | ]. now apply repr_rest.
Qed.
Lemma dec_natural n : natural (dec n) n.
Proof.
  pose proof (p_nat_dec n [] I) as H. apply p_nat_sound in H as (src & E & H). now rewrite !app_nil_r in E; subst.
Qed.
Lemma dec_integer n : integer_literal (dec n) (Z.of_N n).
Proof.
  split; [ constructor; apply dec_natural | ]. intros c r E Hb. pose proof (dec_digits n) as Hd. rewrite E in Hd. apply Forall_inv in Hd.
  apply is_digit_iff in Hd. unfold blank in Hb. lia.
Qed.
Lemma separated_sequence close srcs : forall vs, Forall2 literal srcs vs -> srcs <> [] -> sequence close (separated srcs ++ [close]) vs.
Proof.
  induction srcs as [ | s srcs IH ]; intros vs H Hne; [ congruence | ]. inversion H as [ | ? v ? vs' Hv Hvs ]; subst. destruct srcs as [ | s2 srcs ].
  - inversion Hvs; subst. cbn [separated]. apply (sequence_last close s v []); auto.
  - change (separated (s :: s2 :: srcs)) with (s ++ lit "," ++ lit " " ++ separated (s2 :: srcs)). rewrite <- !app_assoc.
    apply (sequence_more close s v [] (lit " ")); auto. apply IH; [ exact Hvs | discriminate ].
Qed.
Lemma separated_entries srcs : forall vs, Forall2 (fun s v => exists a b, s = a ++ lit ": " ++ b /\ literal a (fst v) /\ literal b (snd v)) srcs vs ->
  entries (separated srcs ++ lit "}") vs.
Proof.
  induction srcs as [ | s srcs IH ]; intros vs H; inversion H as [ | ? v ? vs' Hv Hvs ]; subst; [ constructor | ].
  destruct v as (k, v). destruct Hv as (a & b & -> & Ha & Hb). cbn [fst snd] in *. destruct srcs as [ | s2 srcs ].
  - inversion Hvs; subst. cbn [separated]. change (lit ": ") with (lit ":" ++ lit " "). rewrite <- !app_assoc. apply (entries_last a k [] (lit " ") b v []); auto.
  - change (separated (?x :: s2 :: srcs)) with (x ++ lit "," ++ lit " " ++ separated (s2 :: srcs)). change (lit ": ") with (lit ":" ++ lit " "). rewrite <- !app_assoc.
    apply (entries_more a k [] (lit " ") b v [] (lit " ")); auto.
Qed.
Lemma map_literals p l : Forall (fun v => py_plain v -> literal (py_repr p v) v) l ->
  (fix go (l : list value) : Prop := match l with [] => True | x :: l' => py_plain x /\ go l' end) l -> Forall2 literal (map (py_repr p) l) l.
Proof. induction 1 as [ | x l Hx _ IH ]; intros Hl; [ constructor | ]. destruct Hl as (H1 & H2). cbn [map]. constructor; auto. Qed.
Lemma repr_literal p v : py_plain v -> literal (py_repr p v) v.
Proof.
  induction v as [ s | z | l IH | l IH | l IH | l IH | b | ] using value_rect'; intros H.
  - constructor. now apply repr_string_literal.
  - constructor. destruct z as [ | n | n ].
    + apply (dec_integer 0).
    + pose proof (dec_integer (Npos n)) as X. exact X.
    + cbn [py_repr]. pose proof (dec_integer (Npos n)) as (X & _). split.
      * change (Z.neg n) with (- Z.of_N (N.pos n))%Z. change (lit "-" ++ dec (N.pos n)) with (chr "-" :: dec (N.pos n)). now constructor.
      * intros c r E. injection E as <- _. unfold blank. vm_compute. intros [ Y | [ Y | Y ] ]; discriminate.
  - cbn [py_plain] in H. pose proof (map_literals p l IH H) as HL. destruct l as [ | x [ | y l ] ].
    + apply (lit_empty_tuple []). constructor.
    + cbn [py_repr]. inversion HL; subst. change (lit ",)") with (lit "," ++ [] ++ [chr ")"]).
      apply (lit_tuple [] (py_repr p x) x [] [] [chr ")"] []); auto; constructor.
    + inversion HL; subst.
      change (py_repr p (VTuple (x :: y :: l))) with (lit "(" ++ (py_repr p x ++ lit "," ++ lit " " ++ separated (map (py_repr p) (y :: l))) ++ lit ")").
      rewrite <- !app_assoc. apply (lit_tuple [] (py_repr p x) x [] (lit " ")); auto.
      apply (separated_sequence (chr ")")); [ assumption | discriminate ].
  - cbn [py_plain] in H. pose proof (map_literals p l IH H) as HL. cbn [py_repr]. apply (lit_list []); [ constructor | ].
    destruct l as [ | x l ]; [ constructor | ]. apply (separated_sequence (chr "]")); [ exact HL | discriminate ].
  - cbn [py_repr]. apply (lit_dict []); [ constructor | ]. apply separated_entries. cbn [py_plain] in H.
    induction IH as [ | (k, v) l (Hk & Hv) _ IHl ]; [ constructor | ]. destruct H as (H1 & H2 & H3). cbn [map fst snd] in *. constructor; [ | auto ].
    exists (py_repr p k), (py_repr p v). auto.
  - cbn [py_plain] in H. destruct H as (Hne & H). pose proof (map_literals p l IH H) as HL. destruct l as [ | x l ]; [ congruence | ].
    change (py_repr p (VSet (x :: l))) with (lit "{" ++ separated (map (py_repr p) (x :: l)) ++ lit "}"). apply (lit_set []); [ constructor | | discriminate ].
    apply (separated_sequence (chr "}")); [ exact HL | discriminate ].
  - destruct b; constructor.
  - constructor.
Qed.
Lemma repr_parse p v before after : py_plain v -> spaces before -> spaces after -> parse_literal (before ++ py_repr p v ++ after) = Some v.
Proof. intros H Hb Ha. apply P_Grammar.parse_exact. exists before, (py_repr p v), after. repeat (split; auto). now apply repr_literal. Qed.

(** * Type strings *)
Lemma np_display big s : np_sizes s -> known_scalar s -> np_str big s = type_str_display (np_type_str big s) /\ legal (np_type_str big s).
Proof.
  unfold np_str. destruct s as [ | sg n | n | n | n | n | n | | df [ (k, u) | ] ]; cbn [np_sizes known_scalar]; intros Hs Hk.
  - now split.
  - cbn in Hs. destruct Hs as [ <- | [ <- | [ <- | [ <- | [] ] ] ] ]; destruct sg, big; (split; [ reflexivity | cbn; try (split; [ | reflexivity ]); try (right; split; [ | discriminate ]); auto ]).
  - cbn in Hs. destruct Hs as [ <- | [ <- | [ <- | [ <- | [ <- | [] ] ] ] ] ]; try congruence; destruct big; (split; [ reflexivity | cbn; repeat split; try discriminate; auto ]).
  - cbn in Hs. destruct Hs as [ <- | [ <- | [ <- | [ <- | [] ] ] ] ]; try congruence; destruct big; (split; [ reflexivity | cbn; repeat split; try discriminate; auto ]).
  - split; [ unfold type_str_display; cbn [np_mark np_code np_type_str ts_endianness ts_char ts_size ts_units ts_pickled]; now rewrite app_nil_r | now split ].
  - split; [ unfold type_str_display; destruct big; cbn [np_mark np_code np_type_str ts_endianness ts_char ts_size ts_units ts_pickled]; now rewrite app_nil_r | destruct big; split; auto; now split ].
  - split; [ unfold type_str_display; cbn [np_mark np_code np_type_str ts_endianness ts_char ts_size ts_units ts_pickled]; now rewrite app_nil_r | now split ].
  - now split.
  - destruct Hk as (u' & E). injection E as -> <-. destruct big, df, u; (split; [ reflexivity | repeat split; discriminate ]).
  - destruct Hk as (u' & E). discriminate.
Qed.
Lemma multiple_units k u : 1 < k -> parse_units (lit "[" ++ dec k ++ np_unit u ++ lit "]") = None.
Proof.
  intros Hk. destruct (parse_units _) as [ ou | ] eqn:E; [ exfalso | reflexivity ]. apply parse_units_spec in E.
  destruct (dec_head_digit k) as (c & r & Ed & Hc). rewrite Ed in E. destruct ou as [ u' | ]; [ | discriminate ].
  destruct E as (name & Hin & E). cbn [lit app] in E.
  cbn in Hin. repeat (destruct Hin as [ Hin | Hin ]; [ injection Hin as <- <-; cbn in E; injection E as -> E; vm_compute in Hc; discriminate | ]). exact Hin.
Qed.
Lemma np_unknown big s t : np_sizes s -> ~ known_scalar s -> ~ spells (np_str big s) t.
Proof.
  intros Hs Hk H. apply P_TypeStr.parse_exact in H. unfold np_str in H.
  destruct s as [ | sg n | n | n | n | n | n | | df [ (k, u) | ] ]; cbn [known_scalar np_sizes] in *; try tauto.
  - assert (n = 12) by lia. subst. destruct big; vm_compute in H; discriminate.
  - assert (n = 24) by lia. subst. destruct big; vm_compute in H; discriminate.
  - assert (Hk' : 1 < k). { destruct (N.eq_dec k 1) as [ -> | ]; [ exfalso; apply Hk; eauto | lia ]. }
    cbn [np_mark np_code] in H. replace (k =? 1) with false in H by lia.
    pose proof (multiple_units k u Hk') as Hu.
    destruct big, df; cbn [lit app] in H;
      match type of H with type_str_parse (?a :: ?b :: ?d :: ?r) = _ =>
        change (type_str_parse (a :: b :: [d] ++ (lit "[" ++ dec k ++ np_unit u ++ lit "]")) = TsOk t) in H;
        erewrite parse_unfold in H; [ | reflexivity | reflexivity | repeat constructor | reflexivity ];
        rewrite Hu in H; vm_compute in H; discriminate end.
  - destruct big, df; vm_compute in H; discriminate.
Qed.
Lemma known_scalar_dec s : known_scalar s \/ ~ known_scalar s.
Proof.
  destruct s as [ | sg n | n | n | n | n | n | | df [ (k, u) | ] ]; cbn [known_scalar]; try tauto; try lia.
  - destruct (N.eq_dec k 1) as [ -> | ]; [ left; eauto | right; intros (u' & E); congruence ].
  - right. intros (u & E). discriminate.
Qed.
Lemma np_spells big s t : np_sizes s -> spells (np_str big s) t <-> known_scalar s /\ t = np_type_str big s.
Proof.
  intros Hs. destruct (known_scalar_dec s) as [ Hk | Hk ].
  - destruct (np_display big s Hs Hk) as (E & HL). rewrite <- P_TypeStr.parse_exact, E, (display_parse _ HL). split; [ intros X; injection X as <-; auto | intros (_ & ->); auto ].
  - split; [ intros H; exfalso; eapply np_unknown; eauto | tauto ].
Qed.

(** * Dtypes *)
Fixpoint np_dtype_rect' (P : np_dtype -> Prop) (HP : forall big s, P (NpPlain big s))
  (HR : forall fs, Forall (fun f => P (npf_type f)) fs -> P (NpRecord fs)) (d : np_dtype) : P d :=
  match d with
  | NpPlain big s => HP big s
  | NpRecord fs => HR fs ((fix go (fs : list (np_field np_dtype)) : Forall (fun f => P (npf_type f)) fs :=
      match fs with [] => Forall_nil _ | f :: fs' => Forall_cons f (np_dtype_rect' P HP HR (npf_type f)) (go fs') end) fs)
  end.
Definition np_descr_field (f : np_field np_dtype) : value :=
  VTuple ((match npf_title f with Some t => VTuple [VString t; VString (npf_name f)] | None => VString (npf_name f) end)
              :: np_value (npf_type f) :: match npf_shape f with [] => [] | sh => [np_tuple sh] end).
Lemma np_shape_value sh shape : Forall (fun n => n < 2 ^ 64) sh -> shape_value (np_tuple sh) shape <-> shape = sh.
Proof.
  intros Hs. unfold shape_value, np_tuple. split.
  - intros (l & [ E | E ] & H); [ discriminate | ]. injection E as <-. clear Hs. revert shape H. induction sh as [ | n sh IH ]; intros shape H; inversion H as [ | ? m ? ms (E & _) Hms ]; subst; [ reflexivity | ].
    injection E as E. f_equal; [ lia | now apply IH ].
  - intros ->. eexists. split; [ right; reflexivity | ]. induction Hs; cbn [map]; constructor; auto.
Qed.
Lemma np_describes d : np_ok d -> forall d', describes (np_value d) d' <-> known d /\ d' = np_meaning d.
Proof.
  induction d as [ big s | fs IH ] using np_dtype_rect'; intros Hok d'.
  - cbn [np_value known np_meaning]. cbn [np_ok] in Hok. split.
    + intros H. inversion H as [ ? t Ht | ]; subst. apply np_spells in Ht as (Hk & ->); auto.
    + intros (Hk & ->). constructor. now apply np_spells.
  - cbn [np_value known np_meaning]. change (map _ fs) with (map np_descr_field fs) at 1.
    assert (X : forall fs', describes_fields (map np_descr_field fs) fs' <->
      ((fix go (fs : list (np_field np_dtype)) : Prop := match fs with [] => True | f :: fs' => (npf_title f = None /\ known (npf_type f)) /\ go fs' end) fs)
      /\ fs' = map (fun f => (npf_name f, fold_right DArray (np_meaning (npf_type f)) (npf_shape f))) fs).
    { cbn [np_ok] in Hok. induction IH as [ | f fs Hf _ IHf ]; intros fs'; cbn [map].
      - split; [ intros H; inversion H; auto | intros (_ & ->); constructor ].
      - destruct Hok as ((H1 & H2 & H3 & H4) & H5). specialize (Hf H4). specialize (IHf H5). split.
        + intros H. inversion H as [ | ? ? name d0 fs0 H6 H7 ]; subst. apply IHf in H7 as (H7 & ->).
          assert (H8 : npf_title f = None /\ name = npf_name f /\ known (npf_type f) /\ d0 = fold_right DArray (np_meaning (npf_type f)) (npf_shape f)).
          { unfold np_descr_field in H6. inversion H6 as [ ? ? dv ? [ E | E ] Hd | ? ? dv sv d1 shape [ E | E ] Hd Hsv ]; subst; try discriminate;
              destruct (npf_title f); destruct (npf_shape f) as [ | n sh ] eqn:Esh; try discriminate; injection E as -> E1.
            - subst. apply Hf in Hd as (Hk & ->). auto.
            - intros. subst. apply Hf in Hd as (Hk & ->). apply np_shape_value in Hsv as ->; auto. }
          destruct H8 as (-> & -> & Hk & ->). auto.
        + intros (((Et & Hk) & Hr) & ->). constructor; [ | apply IHf; auto ]. unfold np_descr_field. rewrite Et. destruct (npf_shape f) as [ | n sh ] eqn:Esh.
          * eapply field_pair; [ left; reflexivity | now apply Hf ].
          * eapply field_triple; [ left; reflexivity | now apply Hf | now apply np_shape_value ]. }
    split.
    + intros H. inversion H as [ | ? fs' H' ]; subst. apply X in H' as (H1 & ->). auto.
    + intros (H1 & ->). constructor. apply X. auto.
Qed.

(** * Headers *)
Definition np_dict (d : np_dtype) (fortran : bool) (shape : list N) : value :=
  VDict [(VString (lit "descr"), np_value d); (VString (lit "fortran_order"), VBool fortran); (VString (lit "shape"), np_tuple shape)].
Lemma ascii_scalar s : Forall (fun c => c < 128) s -> Forall (fun c => scalar_value c = true) s.
Proof. apply Forall_impl. intros c H. unfold scalar_value. lia. Qed.
Lemma dec_ascii n : Forall (fun c => c < 128) (dec n).
Proof. eapply Forall_impl; [ | apply dec_digits ]. intros c H. apply is_digit_iff in H. lia. Qed.
Ltac ascii_text := repeat (apply Forall_app; split); try apply dec_ascii; try solve [ repeat constructor ].
Lemma np_str_ascii big s : Forall (fun c => c < 128) (np_str big s).
Proof.
  unfold np_str. apply Forall_app. split.
  - destruct s as [ | ? [ | [ p | p | ] ] | | | | | | | ]; destruct big; repeat constructor.
  - destruct s as [ | [] n | n | n | n | n | n | | [] [ (k, []) | ] ]; cbn [np_code]; ascii_text; destruct (k =? 1); ascii_text.
Qed.
Lemma py_plain_tuple l : py_plain (np_tuple l).
Proof. unfold np_tuple. cbn [py_plain]. induction l as [ | n l IH ]; cbn [map]; [ exact I | split; [ exact I | exact IH ] ]. Qed.
Lemma py_plain_np d : np_ok d -> py_plain (np_value d).
Proof.
  induction d as [ big s | fs IH ] using np_dtype_rect'; intros Hok.
  - cbn [np_value py_plain]. apply ascii_scalar, np_str_ascii.
  - cbn [np_value py_plain]. change (map _ fs) with (map np_descr_field fs). cbn [np_ok] in Hok.
    induction IH as [ | f fs Hf _ IHf ]; cbn [map]; [ exact I | ]. cbn [py_plain]. destruct Hok as ((H1 & H2 & H3 & H4) & H5). split; [ | now apply IHf ].
    unfold np_descr_field. cbn [py_plain]. split; [ destruct (npf_title f) eqn:Et; [ cbn [py_plain]; repeat split; eauto | exact H1 ] | ]. split; [ now apply Hf | ].
    destruct (npf_shape f) as [ | n sh ]; [ exact I | split; [ apply py_plain_tuple | exact I ] ].
Qed.
Lemma np_header_literal p d fortran shape : np_ok d -> literal (np_header p d fortran shape) (np_dict d fortran shape).
Proof.
  intros Hok. unfold np_header, np_dict. apply py_plain_np in Hok. pose proof (repr_literal p _ Hok) as L1.
  pose proof (repr_literal p (VBool fortran) I) as L2. pose proof (repr_literal p _ (py_plain_tuple shape)) as L3.
  revert L1 L2 L3. generalize (py_repr p (np_value d)) (py_repr p (VBool fortran)) (py_repr p (np_tuple shape)) (np_value d) (VBool fortran) (np_tuple shape).
  intros s1 s2 s3 v1 v2 v3 L1 L2 L3.
  assert (K : forall k, Forall (fun c => scalar_value c = true) k -> literal (repr_string p k) (VString k)) by (intros k Hk; constructor; now apply repr_string_literal).
  assert (K1 := K (lit "descr") ltac:(repeat constructor)). assert (K2 := K (lit "fortran_order") ltac:(repeat constructor)). assert (K3 := K (lit "shape") ltac:(repeat constructor)).
  change (repr_string p (lit "descr")) with (lit "'descr'") in K1. change (repr_string p (lit "fortran_order")) with (lit "'fortran_order'") in K2.
  change (repr_string p (lit "shape")) with (lit "'shape'") in K3.
  change (lit "{'descr': ") with (lit "{" ++ [] ++ lit "'descr'" ++ [] ++ lit ":" ++ lit " "). change (lit ", 'fortran_order': ") with ([] ++ lit "," ++ lit " " ++ lit "'fortran_order'" ++ [] ++ lit ":" ++ lit " ").
  change (lit ", 'shape': ") with ([] ++ lit "," ++ lit " " ++ lit "'shape'" ++ [] ++ lit ":" ++ lit " "). change (lit ", }") with ([] ++ lit "," ++ lit " " ++ lit "}").
  rewrite <- !app_assoc. apply lit_dict; [ auto | ]. apply entries_more; auto. apply entries_more; auto. apply entries_more; auto. constructor.
Qed.
Lemma np_dict_says d fortran shape d' shape' o : np_ok d -> Forall (fun n => n < 2 ^ 64) shape ->
  header_says (np_dict d fortran shape) d' shape' o <-> known d /\ d' = np_meaning d /\ shape' = shape /\ o = if fortran then OrderFortran else OrderC.
Proof.
  intros Hok Hsh. unfold header_says, np_dict.
  assert (L1 : last_value (lit "descr") [(VString (lit "descr"), np_value d); (VString (lit "fortran_order"), VBool fortran); (VString (lit "shape"), np_tuple shape)] (np_value d)).
  { exists [], [(VString (lit "fortran_order"), VBool fortran); (VString (lit "shape"), np_tuple shape)]. split; [ reflexivity | ]. cbn. intros [ E | [ E | [] ] ]; discriminate. }
  assert (L2 : last_value (lit "fortran_order") [(VString (lit "descr"), np_value d); (VString (lit "fortran_order"), VBool fortran); (VString (lit "shape"), np_tuple shape)] (VBool fortran)).
  { exists [(VString (lit "descr"), np_value d)], [(VString (lit "shape"), np_tuple shape)]. split; [ reflexivity | ]. cbn. intros [ E | [] ]; discriminate. }
  assert (L3 : last_value (lit "shape") [(VString (lit "descr"), np_value d); (VString (lit "fortran_order"), VBool fortran); (VString (lit "shape"), np_tuple shape)] (np_tuple shape)).
  { exists [(VString (lit "descr"), np_value d); (VString (lit "fortran_order"), VBool fortran)], []. split; [ reflexivity | ]. cbn. tauto. }
  assert (U : forall key pairs v v', last_value key pairs v -> last_value key pairs v' -> v = v').
  { clear. intros key pairs v v' (l1 & l2 & -> & H) (m1 & m2 & E & H'). revert m1 E. induction l1 as [ | x l1 IH ]; intros [ | y m1 ] E; cbn [app] in E.
    - now injection E.
    - injection E as <- ->. exfalso. apply H. rewrite map_app. apply in_app_iff. right. now left.
    - injection E as -> <-. exfalso. apply H'. rewrite map_app. apply in_app_iff. right. now left.
    - injection E as _ E. exact (IH _ E). }
  split.
  - intros (pairs & dv & sv & fo & E & _ & H1 & H2 & H3 & H4 & H5 & ->). injection E as <-.
    rewrite (U _ _ _ _ H1 L1) in H2. rewrite (U _ _ _ _ H3 L3) in H4. pose proof (U _ _ _ _ H5 L2) as E. injection E as ->.
    apply np_describes in H2 as (Hk & ->); auto. apply np_shape_value in H4; auto.
  - intros (Hk & -> & -> & ->). eexists _, (np_value d), (np_tuple shape), fortran. split; [ reflexivity | ]. split; [ repeat (constructor; [ eexists; reflexivity | ]); constructor | ].
    split; [ exact L1 | ]. split; [ now apply np_describes | ]. split; [ exact L3 | ]. split; [ now apply np_shape_value | ]. split; [ exact L2 | reflexivity ].
Qed.

(** Characters of a header *)
Lemma repr_char_scalar p q c : quote q -> scalar_value c = true -> Forall (fun x => scalar_value x = true) (repr_char p q c).
Proof.
  intros Hq Hc. assert (HH : forall k n, Forall (fun x => scalar_value x = true) (hex_text k n)).
  { intros k. induction k as [ | k IH ]; intros n; [ constructor | ]. cbn [hex_text]. apply Forall_app. split; auto. constructor; [ | constructor ].
    unfold hex_char, scalar_value. pose proof (N.mod_lt n 16 ltac:(lia)). destruct (N.ltb_spec (n mod 16) 10); lia. }
  unfold repr_char. repeat match goal with |- context [ if ?b then _ else _ ] => destruct b end; repeat (constructor; auto).
Qed.
Lemma repr_char_ascii p q c : quote q -> c < 128 -> Forall (fun x => x < 128) (repr_char p q c).
Proof.
  intros Hq Hc. assert (HH : forall k n, Forall (fun x => x < 128) (hex_text k n)).
  { intros k. induction k as [ | k IH ]; intros n; [ constructor | ]. cbn [hex_text]. apply Forall_app. split; auto. constructor; [ | constructor ].
    unfold hex_char. pose proof (N.mod_lt n 16 ltac:(lia)). destruct (N.ltb_spec (n mod 16) 10); lia. }
  unfold repr_char. repeat match goal with |- context [ if ?b then _ else _ ] => destruct b end; repeat (constructor; auto); reflexivity.
Qed.
(** All texts of a value have a property that the punctuation has. *)
Fixpoint all_texts (P : text -> Prop) (v : value) : Prop :=
  match v with
  | VString s => P s
  | VTuple l | VList l | VSet l => (fix go (l : list value) : Prop := match l with [] => True | x :: l' => all_texts P x /\ go l' end) l
  | VDict l => (fix go (l : list (value * value)) : Prop := match l with [] => True | p :: l' => all_texts P (fst p) /\ all_texts P (snd p) /\ go l' end) l
  | _ => True
  end.
Lemma separated_all (Q : N -> Prop) l : Q 44 -> Q 32 -> Forall (Forall Q) l -> Forall Q (separated l).
Proof.
  intros H1 H2 H. induction H as [ | x l Hx Hl IH ]; [ constructor | ]. destruct l as [ | y l ]; [ exact Hx | ].
  change (separated (x :: y :: l)) with (x ++ lit ", " ++ separated (y :: l)). apply Forall_app. split; [ exact Hx | ]. apply Forall_app. split; [ repeat constructor; auto | exact IH ].
Qed.
Lemma dec_low n : Forall (fun c => 0 < c < 128) (dec n).
Proof. eapply Forall_impl; [ | apply dec_digits ]. intros c Hc. apply is_digit_iff in Hc. lia. Qed.
Lemma repr_all (Q : N -> Prop) p v : (forall c, 0 < c < 128 -> Q c) -> all_texts (fun s => Forall Q (repr_string p s)) v -> Forall Q (py_repr p v).
Proof.
  intros HQ. assert (A : forall s, Forall (fun c => 0 < c < 128) s -> Forall Q s) by (intros s; apply Forall_impl, HQ).
  assert (G : forall l, Forall (fun v => all_texts (fun s => Forall Q (repr_string p s)) v -> Forall Q (py_repr p v)) l ->
     (fix go (l : list value) : Prop := match l with [] => True | x :: l' => all_texts (fun s => Forall Q (repr_string p s)) x /\ go l' end) l -> Forall (Forall Q) (map (py_repr p) l)).
  { induction 1 as [ | x l Hx _ IH ]; intros H; cbn [map]; [ constructor | ]. destruct H. constructor; auto. }
  assert (S : forall l, Forall (Forall Q) l -> Forall Q (separated l)) by (intros l; apply separated_all; apply HQ; lia).
  assert (W : forall a b s, Forall (fun c => 0 < c < 128) a -> Forall (fun c => 0 < c < 128) b -> Forall Q s -> Forall Q (a ++ s ++ b)) by (intros; apply Forall_app; split; auto; apply Forall_app; auto).
  induction v as [ s | z | l IH | l IH | l IH | l IH | b | ] using value_rect'; intros H.
  - exact H.
  - apply A. destruct z; cbn [py_repr]; try apply dec_low. apply Forall_app. split; [ repeat constructor | apply dec_low ].
  - apply G in H; auto. destruct l as [ | x [ | y l ] ]; [ apply A; repeat constructor | | ].
    + cbn [py_repr]. inversion H; subst. apply W; auto; repeat constructor.
    + apply (W (lit "(") (lit ")")); auto; repeat constructor.
  - apply G in H; auto. apply (W (lit "[") (lit "]")); auto; repeat constructor.
  - apply (W (lit "{") (lit "}")); try solve [ repeat constructor ]. apply S. cbn [all_texts] in H.
    induction IH as [ | (k, v) l (Hk & Hv) _ IHl ]; cbn [map]; [ constructor | ]. destruct H as (H1 & H2 & H3). constructor; [ | auto ]. cbn [fst snd] in *.
    apply Forall_app. split; [ auto | ]. apply Forall_app. split; [ apply A; repeat constructor | auto ].
  - apply G in H; auto. destruct l as [ | x l ]; [ apply A; repeat constructor | ]. apply (W (lit "{") (lit "}")); auto; repeat constructor.
  - apply A. destruct b; repeat constructor.
  - apply A. repeat constructor.
Qed.
Lemma repr_string_scalar p s : Forall (fun c => scalar_value c = true) s -> Forall (fun c => scalar_value c = true) (repr_string p s).
Proof.
  intros H. pose proof (repr_quote_ok s) as Hq. unfold repr_string. assert (scalar_value (repr_quote s) = true) by (destruct Hq as [ -> | -> ]; reflexivity).
  repeat (apply Forall_app; split); auto. apply Forall_flat_map. eapply Forall_impl; [ | exact H ]. intros c Hc. now apply repr_char_scalar.
Qed.
Lemma repr_string_ascii p s : Forall (fun c => c < 128) s -> Forall (fun c => c < 128) (repr_string p s).
Proof.
  intros H. pose proof (repr_quote_ok s) as Hq. unfold repr_string. assert (repr_quote s < 128) by (destruct Hq as [ -> | -> ]; reflexivity).
  repeat (apply Forall_app; split); auto. apply Forall_flat_map. eapply Forall_impl; [ | exact H ]. intros c Hc. now apply repr_char_ascii.
Qed.
Lemma tuple_texts P l : all_texts P (np_tuple l).
Proof. unfold np_tuple. cbn [all_texts]. induction l as [ | n l IH ]; cbn [map]; [ exact I | split; [ exact I | exact IH ] ]. Qed.
Lemma np_texts (P : text -> Prop) (Q : np_dtype -> Prop) : (forall s, Forall (fun c => c < 128) s -> P s) -> forall d,
  (forall fs, Q (NpRecord fs) -> Forall (fun f => P (npf_name f) /\ (forall t, npf_title f = Some t -> P t) /\ Q (npf_type f)) fs) -> Q d -> all_texts P (np_value d).
Proof.
  intros HA d HR. induction d as [ big s | fs IH ] using np_dtype_rect'; intros H.
  - apply HA, np_str_ascii.
  - cbn [np_value all_texts]. change (map _ fs) with (map np_descr_field fs). apply HR in H.
    induction IH as [ | f fs Hf _ IHf ]; cbn [map]; [ exact I | ]. cbn [all_texts]. inversion H as [ | ? ? (H1 & H2 & H3) H4 ]; subst. split; [ | now apply IHf ].
    unfold np_descr_field. cbn [all_texts]. split; [ destruct (npf_title f) eqn:Et; [ cbn [all_texts]; repeat split; eauto | exact H1 ] | ]. split; [ now apply Hf | ].
    destruct (npf_shape f) as [ | n sh ]; [ exact I | split; [ apply tuple_texts | exact I ] ].
Qed.
Lemma np_header_all (Q : N -> Prop) p d fortran shape : (forall c, 0 < c < 128 -> Q c) -> all_texts (fun s => Forall Q (repr_string p s)) (np_value d) -> Forall Q (np_header p d fortran shape).
Proof.
  intros HQ H. assert (A : forall s, Forall (fun c => 0 < c < 128) s -> Forall Q s) by (intros s; apply Forall_impl, HQ).
  pose proof (repr_all Q p _ HQ H) as H1. pose proof (repr_all Q p _ HQ (tuple_texts (fun s => Forall Q (repr_string p s)) shape)) as H2.
  unfold np_header. repeat (apply Forall_app; split); auto; try (apply A; destruct fortran; repeat constructor; fail); apply A; repeat constructor.
Qed.
Lemma np_header_scalar p d fortran shape : np_ok d -> Forall (fun c => scalar_value c = true) (np_header p d fortran shape).
Proof.
  intros H. apply np_header_all; [ intros c Hc; unfold scalar_value; lia | ]. apply (np_texts _ np_ok); auto.
  - intros s Hs. apply repr_string_scalar, ascii_scalar, Hs.
  - intros fs Hfs. cbn [np_ok] in Hfs. induction fs as [ | f fs IH ]; [ constructor | ]. destruct Hfs as ((H1 & H2 & H3 & H4) & H5). constructor; [ | auto ].
    split; [ now apply repr_string_scalar | split; [ intros t Ht; apply repr_string_scalar; eauto | auto ] ].
Qed.
Lemma np_header_ascii p d fortran shape : np_ascii d -> Forall (fun c => c < 128) (np_header p d fortran shape).
Proof.
  intros H. apply np_header_all; [ intros c (_ & Hc); exact Hc | ]. apply (np_texts _ np_ascii); auto.
  - intros s Hs. now apply repr_string_ascii.
  - intros fs Hfs. cbn [np_ascii] in Hfs. induction fs as [ | f fs IH ]; [ constructor | ]. destruct Hfs as ((H1 & H2 & H3) & H5). constructor; [ | auto ].
    split; [ now apply repr_string_ascii | split; [ intros t Ht; apply repr_string_ascii; eauto | auto ] ].
Qed.

(** * Files *)
Lemma spaces_ascii pad : Forall (fun c => c < 128) (repeatN 32 pad).
Proof. apply Forall_forall. intros c H. unfold repeatN in H. apply repeat_spec in H as ->. reflexivity. Qed.
Lemma spaces_blank pad : spaces (repeatN 32 pad).
Proof. apply Forall_forall. intros c H. unfold repeatN in H. apply repeat_spec in H as ->. now left. Qed.
Lemma np_preamble p major d fortran shape data file : np_ok d -> np_file p major d fortran shape data file -> exists pre txt pad,
  file = pre ++ data /\ preamble_of pre (txt ++ repeatN 32 pad ++ [10]) /\ np_encoded major (np_header p d fortran shape) txt
  /\ (Forall (fun b => b < 256) data -> Forall (fun b => b < 256) file).
Proof.
  intros Hok (txt & pad & len & He & H1 & H2 & H3 & ->).
  assert (Hm : major = 1 \/ major = 2 \/ major = 3) by (destruct He as [ ([ -> | -> ] & _) | (-> & _) ]; auto).
  exists ([0x93] ++ lit "NUMPY" ++ [major; 0] ++ len ++ txt ++ repeatN 32 pad ++ [10]), txt, pad.
  split; [ rewrite <- !app_assoc; reflexivity | ]. split; [ | split; [ exact He | ] ].
  - exists major, len. repeat (split; auto). rewrite H3, !lenN_app, lenN_repeatN. change (lenN [10]) with 1. lia.
  - intros Hd. assert (Ht : Forall (fun b => b < 256) txt).
    { destruct He as [ (_ & He & ->) | (_ & ->) ]; [ exact He | apply utf8_bytes, np_header_scalar, Hok ]. }
    repeat (apply Forall_app; split); auto; try solve [ repeat constructor ].
    + repeat constructor. destruct Hm as [ -> | [ -> | -> ] ]; reflexivity.
    + eapply Forall_impl; [ | apply spaces_ascii ]. cbn. lia.
Qed.
Lemma np_text p major d fortran shape txt pad : np_ok d -> major = 3 \/ Forall (fun ch => ch < 128) (np_header p d fortran shape) -> np_encoded major (np_header p d fortran shape) txt ->
  header_text (txt ++ repeatN 32 pad ++ [10]) (np_dict d fortran shape).
Proof.
  intros Hok Hm He.
  assert (Ht : txt = utf8_string (np_header p d fortran shape)).
  { destruct Hm as [ -> | Ha ]; destruct He as [ (Hv & _ & ->) | (_ & ->) ]; auto; [ lia | ]. symmetry. now apply utf8_ascii. }
  exists (np_header p d fortran shape ++ repeatN 32 pad). split; [ | split ].
  - apply Forall_app. split; [ now apply np_header_scalar | apply ascii_scalar, spaces_ascii ].
  - right. rewrite Ht. unfold utf8_string. rewrite flat_map_app, <- app_assoc. f_equal. f_equal. symmetry. apply (utf8_ascii (repeatN 32 pad)), spaces_ascii.
  - exists [], (np_header p d fortran shape), (repeatN 32 pad). repeat (split; auto using spaces_blank). now apply np_header_literal.
Qed.
Lemma np_read_header p major d fortran shape data file : np_ok d -> Forall (fun b => b < 256) data -> major = 3 \/ Forall (fun ch => ch < 128) (np_header p d fortran shape) ->
  np_file p major d fortran shape data file -> run read_header file = (Ok (np_dict d fortran shape), data).
Proof.
  intros Hok Hd Hm Hf. destruct (np_preamble _ _ _ _ _ _ _ Hok Hf) as (pre & txt & pad & -> & Hp & He & Hb). specialize (Hb Hd).
  rewrite (read_header_preamble _ _ _ Hp). f_equal. apply header_text_exact; [ eapply preamble_bytes; eauto | ]. eapply np_text; eauto.
Qed.
Lemma np_open p c major d fortran shape data file h rest : np_ok d -> Forall (fun n => n < 2 ^ 64) shape -> Forall (fun b => b < 256) data -> major = 3 \/ Forall (fun ch => ch < 128) (np_header p d fortran shape) ->
  np_file p major d fortran shape data file ->
  run (read_and_interpret c) file = (Ok h, rest) <->
  known d /\ no_overflow_met c shape (np_order fortran) /\ countable c (np_meaning d) /\ numbers c (np_meaning d) shape (np_order fortran) h /\ rest = data.
Proof.
  intros Hok Hsh Hd Hm Hf. pose proof (np_read_header _ _ _ _ _ _ _ Hok Hd Hm Hf) as Hr. destruct (np_preamble _ _ _ _ _ _ _ Hok Hf) as (pre & txt & pad & E & Hp & He & Hb). specialize (Hb Hd).
  rewrite open_exact by exact Hb. split.
  - intros (pre' & txt' & v & d' & sh' & o & E' & Hp' & Ht & Hs & H1 & H2 & H3).
    assert (Hr' : run read_header file = (Ok v, rest)).
    { rewrite E', (read_header_preamble _ _ _ Hp'). f_equal. apply header_text_exact; auto. eapply preamble_bytes; [ | exact Hp' ]. rewrite <- E'. exact Hb. }
    rewrite Hr in Hr'. apply pair_inj in Hr' as (Hv & <-). apply Ok_inj in Hv as <-. apply np_dict_says in Hs as (Hk & -> & -> & ->); auto.
  - intros (Hk & H1 & H2 & H3 & ->). exists pre, (txt ++ repeatN 32 pad ++ [10]), (np_dict d fortran shape), (np_meaning d), shape, (np_order fortran).
    repeat (split; [ solve [ auto | eapply np_text; eauto | apply np_dict_says; auto ] | ]). auto.
Qed.
Lemma np_open_panic p c major d fortran shape data file : np_ok d -> Forall (fun n => n < 2 ^ 64) shape -> Forall (fun b => b < 256) data -> major = 3 \/ Forall (fun ch => ch < 128) (np_header p d fortran shape) ->
  np_file p major d fortran shape data file ->
  fst (run (read_and_interpret c) file) = Panic <-> known d /\ overflow_panic c (np_meaning d) shape (np_order fortran).
Proof.
  intros Hok Hsh Hd Hm Hf. pose proof (np_read_header _ _ _ _ _ _ _ Hok Hd Hm Hf) as Hr. destruct (np_preamble _ _ _ _ _ _ _ Hok Hf) as (pre & txt & pad & E & Hp & He & Hb). specialize (Hb Hd).
  rewrite open_panic_exact by exact Hb. split.
  - intros (pre' & txt' & v & d' & sh' & o & rest & E' & Hp' & Ht & Hs & H1).
    assert (Hr' : run read_header file = (Ok v, rest)).
    { rewrite E', (read_header_preamble _ _ _ Hp'). f_equal. apply header_text_exact; auto. eapply preamble_bytes; [ | exact Hp' ]. rewrite <- E'. exact Hb. }
    rewrite Hr in Hr'. apply pair_inj in Hr' as (Hv & <-). apply Ok_inj in Hv as <-. apply np_dict_says in Hs as (Hk & -> & -> & ->); auto.
  - intros (Hk & H1). exists pre, (txt ++ repeatN 32 pad ++ [10]), (np_dict d fortran shape), (np_meaning d), shape, (np_order fortran), data.
    repeat (split; [ solve [ auto | eapply np_text; eauto | apply np_dict_says; auto ] | ]). auto.
Qed.
Lemma np_refused p c major d fortran shape data file : np_ok d -> Forall (fun n => n < 2 ^ 64) shape -> Forall (fun b => b < 256) data -> major = 3 \/ Forall (fun ch => ch < 128) (np_header p d fortran shape) ->
  np_file p major d fortran shape data file -> ~ known d -> exists e, fst (run (read_and_interpret c) file) = Err e.
Proof.
  intros Hok Hsh Hd Hm Hf Hk. destruct (run (read_and_interpret c) file) as ([ h | e | ], rest) eqn:E; cbn [fst]; [ | eauto | ]; exfalso; apply Hk.
  - eapply np_open in E as (H & _); eauto.
  - assert (E' : fst (run (read_and_interpret c) file) = Panic) by now rewrite E. eapply np_open_panic in E' as (H & _); eauto.
Qed.
Lemma np_items p c t major d fortran shape data file vs : np_ok d -> Forall (fun n => n < 2 ^ 64) shape -> Forall (fun b => b < 256) data -> major = 3 \/ Forall (fun ch => ch < 128) (np_header p d fortran shape) ->
  np_file p major d fortran shape data file -> known d -> strings_fit (c_usize_max c) (np_meaning d) ->
  (exists f cur, npy_new c {| cur_data := file; cur_pos := 0 |} = (Ok f, cur) /\ fst (npy_into_vec c t f) = Ok vs)
  <-> no_overflow_met c shape (np_order fortran) /\ sizes_fit (c_usize_max c) (np_meaning d) /\ ~ has_object (np_meaning d)
      /\ accepts (c_usize_max c) Reading t (np_meaning d) /\ file_items t (np_meaning d) shape data vs.
Proof.
  intros Hok Hsh Hd Hm Hf Hk Hfit. destruct (np_preamble _ _ _ _ _ _ _ Hok Hf) as (pre & txt & pad & E & Hp & He & Hb). specialize (Hb Hd). split.
  - intros (f & cur & Hn & Hv).
    pose proof Hn as Hn'. rewrite new_run in Hn'. destruct (run (read_and_interpret c) file) as ([ h | e | ], rest) eqn:Er; try discriminate.
    apply pair_inj in Hn' as (Hn' & _). apply Ok_inj in Hn'. destruct (proj1 (np_open p c major d fortran shape data file h rest Hok Hsh Hd Hm Hf) Er) as (_ & H1 & H2 & H3 & Hrest). subst rest.
    assert (Hfile : file_of c t file (np_meaning d) shape (np_order fortran) vs).
    { apply whole_file; auto. exists f, cur. destruct H3 as (N1 & N2 & N3 & _). subst f. split; [ exact Hn | ]. cbn [nf_header]. auto. }
    destruct Hfile as (Ho & Ha & data' & Hfh & Hi). destruct Hfh as (pre' & txt' & v & Hbs & Hp' & Ht & Hs & _ & _).
    assert (Ed : data' = data).
    { pose proof (np_read_header _ _ _ _ _ _ _ Hok Hd Hm Hf) as Hr. rewrite Hbs, (read_header_preamble _ _ _ Hp') in Hr. now injection Hr. }
    subst data'. destruct H2 as [ H2 | H2 ]; [ contradiction | ]. auto.
  - intros (H1 & H2 & H3 & H4 & H5).
    destruct (proj2 (whole_file c t file (np_meaning d) shape (np_order fortran) vs Hfit Hb)) as (f & cur & Hn & _ & _ & _ & Hv); [ | eauto ].
    split; [ exact H3 | ]. split; [ exact H4 | ]. exists data. split; [ | exact H5 ]. exists pre, (txt ++ repeatN 32 pad ++ [10]), (np_dict d fortran shape).
    repeat (split; [ solve [ auto | eapply np_text; eauto | apply np_dict_says; auto ] | ]). now right.
Qed.
