(** Finished files after failed pushes. *)
From Verif Require Import M_Base M_Text M_TypeStr M_PyLit M_IO M_Header M_Read M_Serialize M_NpyReader M_Write.
From Verif Require Import S_Text S_TypeStr S_DType S_Shape S_Header S_Elem S_Strings S_Reader S_Write S_Reject S_DText S_File S_Fault S_Message S_Outcome
  P_Base P_Text P_TypeStr P_PyLit P_Header P_IO P_Sink P_Shape P_WriteHeader P_Number P_Elem P_ReadOne P_WriteOne P_Codec P_Sizes P_Strings P_Parse P_Default P_ElemT P_Reader P_Array P_Writer P_WriteFile P_Session P_Whole T_Text P_DText P_File P_Outcome P_Crash P_Fault P_Roomy.
Require Import ZifyBool ZifyNat ZifyN.
Open Scope N_scope.

(** * The files of the description open *)
Lemma little_endian_bound len : Forall (fun b => b < 256) len -> little_endian len < 256 ^ lenN len.
Proof.
  induction 1 as [ | b l Hb H IH ]; cbn [little_endian]; [ reflexivity | ]. rewrite lenN_cons. replace (lenN l + 1) with (N.succ (lenN l)) by lia.
  replace (1 + lenN l) with (N.succ (lenN l)) by lia. rewrite N.pow_succ_r'. lia.
Qed.
Lemma laid_out_header d o sh reserve payload file : wf_dtype d -> laid_out d o sh reserve payload file ->
  exists hdr props pad, header_of (dict_bytes_of d o sh ++ repeatN 32 reserve) hdr props pad /\ file = hdr ++ payload.
Proof.
  intros Hwf [ dt dict k m len D E K M L B V A ]. apply dtype_text_exact in D as (_ & ->); auto. change (dict = dict_bytes_of d o sh) in E. subst dict.
  set (dict := dict_bytes_of d o sh) in *. set (txt := (dict ++ repeatN 32 reserve) ++ repeatN 32 k ++ [10]).
  assert (Hl : lenN txt = lenN dict + reserve + k + 1).
  { unfold txt. rewrite !lenN_app, !lenN_repeatN, lenN_cons, lenN_nil. lia. }
  set (u32 := negb (m =? 1)). set (props := {| vp_u32 := u32; vp_utf8 := negb (is_ascii dict) |}).
  assert (Hlen : len = len_field props (lenN txt)).
  { apply little_endian_inj; auto.
    - unfold len_field. rewrite le_bytes_length. cbn [vp_u32 props]. rewrite L. unfold u32. now destruct (m =? 1).
    - apply le_bytes_ok.
    - rewrite V, <- Hl, little_endian_le. unfold len_field. rewrite le_value_bytes; [ reflexivity | ]. rewrite Hl, <- V.
      pose proof (little_endian_bound len B) as Hlt. rewrite L in Hlt. cbn [vp_u32 props]. unfold u32. destruct (m =? 1); exact Hlt. }
  pose proof (little_endian_bound len B) as Hlt.
  rewrite L, V, <- Hl in Hlt.
  assert (Hver : (m, 0) = (if negb (is_ascii dict) then (3, 0) else if safe_u16_cutoff <=? lenN dict + reserve then (2, 0) else (1, 0))).
  { rewrite M. unfold is_ascii, safe_u16_cutoff. rewrite negb_involutive. destruct (existsb _ dict); [ reflexivity | ]. destruct (_ <=? _); reflexivity. }
  assert (Hu : u32 = negb (is_ascii dict) || (safe_u16_cutoff <=? lenN dict + reserve)).
  { unfold u32. rewrite M. unfold is_ascii, safe_u16_cutoff. rewrite negb_involutive. destruct (existsb _ dict); [ reflexivity | ]. destruct (_ <=? _); reflexivity. }
  exists (preamble (m, 0) props txt), props, k. split.
  - econstructor.
    + reflexivity.
    + exact K.
    + fold txt. rewrite bytes_before_eq. cbn [vp_u32 props]. rewrite Hl. rewrite V, L in A. unfold u32. rewrite <- A. f_equal. destruct (m =? 1); cbn [negb]; lia.
    + rewrite Hver. unfold props. rewrite Hu. destruct (is_ascii dict); cbn [negb orb]; [ | reflexivity ]. destruct (_ <=? _); reflexivity.
    + rewrite ascii_reserve, lenN_app, lenN_repeatN. exact Hver.
    + rewrite ascii_reserve, lenN_app, lenN_repeatN. unfold props. now rewrite Hu.
    + fold txt. unfold len_ok. cbn [vp_u32 props]. unfold u32. destruct (m =? 1); cbn [negb]; apply N.leb_le.
      * change (256 ^ 2) with 65536 in Hlt. change (2 ^ 16 - 1) with 65535. lia.
      * change (256 ^ 4) with 4294967296 in Hlt. change (2 ^ 32 - 1) with 4294967295. lia.
  - unfold preamble. cbn [fst snd]. rewrite Hlen at 1. rewrite repeatN_add. unfold txt. app_norm. reflexivity.
Qed.

Lemma finished_opens d o h shape payload file : wf_dtype d -> top_level d -> Forall (fun n => n < 2 ^ 64) shape -> no_overflow shape ->
  finished_file d o h shape payload file -> file_with d o shape file payload.
Proof.
  intros Hw Ht Hs Hno (sh & reserve & Hsh & Hl). destruct (laid_out_header _ _ _ _ _ _ Hw Hl) as (hdr & props & pad & Hh & ->).
  apply opens_with; [ exact Hno | ]. intros c rest. rewrite <- app_assoc. destruct Hsh as [ o shape sh L | o n ds L | r n ds rs L1 L2 | r n ds rs L1 L2 ].
  - apply listed_unique in L. subst sh. apply (read_written_nd c d o shape hdr props pad); auto. revert Hh.
    change (repeatN 32 0) with (@nil N). now rewrite app_nil_r.
  - apply shortest_unique in L. subst ds. apply (read_grown c d o OneDimensional n hdr props pad); auto; [ exact I | ].
    rewrite suffix_tuple by exact I. unfold tuple_text. rewrite dict_in. exact Hh.
  - apply shortest_unique in L1, L2. subst. apply (read_grown c d OrderC (TwoDimensional r) n hdr props pad); auto; [ exact I | ].
    rewrite suffix_tuple by exact I. unfold tuple_text. rewrite dict_in. exact Hh.
  - apply shortest_unique in L1, L2. subst. apply (read_grown c d OrderFortran (TwoDimensional r) n hdr props pad); auto; [ exact I | ].
    rewrite suffix_tuple by exact I. unfold tuple_text. rewrite dict_in. exact Hh.
Qed.

(** * What a failed push leaves *)
Lemma member_room m fs : forall ds name t fs' name' d ds' before x after bs,
  accepts_fields m Writing (fs ++ (name, t) :: fs') (ds ++ (name', d) :: ds') -> has_types (fs ++ (name, t) :: fs') (before ++ x :: after) ->
  encode_fields fs ds before = Some bs ->
  accepts m Writing t d /\ has_type t x /\ bytes_ok bs /\ lenN bs + size d <= size_fields (ds ++ (name', d) :: ds').
Proof.
  induction fs as [ | (name0, t0) fs IH ]; intros [ | (name0', d0) ds ] name t fs' name' d ds' [ | x0 before ] x after bs Ha Hv He; cbn [encode_fields] in He; try discriminate He.
  - apply Some_inj in He as <-. cbn [app accepts_fields has_types size_fields] in *. destruct Ha as (_ & Ha & _), Hv as (Hv & _). split; [ auto | split; [ auto | split; [ constructor | ] ] ].
    change (lenN []) with 0. lia.
  - fold encode_fields in He. destruct (encode t0 d0 x0) as [ a | ] eqn:Ea; [ | discriminate ]. destruct (encode_fields fs ds before) as [ b | ] eqn:Eb; [ | discriminate ].
    apply Some_inj in He as <-. cbn [app accepts_fields has_types size_fields] in *. fold (accepts_fields m Writing) has_types size_fields in *.
    destruct Ha as (_ & Ha0 & Ha), Hv as (Hv0 & Hv). destruct (encode_len t0 _ _ _ _ Ha0 Hv0 Ea) as (L1 & B1). destruct (IH _ _ _ _ _ _ _ _ _ _ _ Ha Hv Eb) as (H1 & H2 & H3 & H4).
    split; [ auto | split; [ auto | split; [ now apply Forall_app | ] ] ]. rewrite lenN_app. lia.
Qed.
Lemma unstorable_len m t d v out msg : unstorable t d v out msg -> accepts m Writing t d -> has_type t v -> lenN out <= size d /\ bytes_ok out.
Proof.
  induction 1 as [ t ts bs n w Ht Hl Hn Hw | t ts us n w Ht Hl Hn Hw | t ts before u after h Ht Hl Hb Hu Hh | t ts s n w Ht Hc Hl Hn Hw | t ts s n w Ht Hc Hl Hn Hw
    | n t m' d before x after bs out msg He Hx IH | fs name t fs' ds name' d ds' before x after bs out msg He Hx IH ]; intros Ha Hv.
  - split; [ apply N.le_0_l | constructor ].
  - split; [ apply N.le_0_l | constructor ].
  - split; [ | apply utf32_bytes ]. rewrite utf32_len. cbn [size]. unfold scalar_size. assert (ts_char ts = TUnicodeStr) as ->.
    { destruct Ht as [ -> | (n & ->) ]; cbn [accepts scalar_ok] in Ha; tauto. }
    rewrite lenN_app in Hl. lia.
  - split; [ | apply utf32_bytes ]. rewrite utf32_len, lenN_takeN. cbn [size]. unfold scalar_size. rewrite Hc. lia.
  - split; [ apply N.le_0_l | constructor ].
  - cbn [accepts] in Ha. destruct Ha as (<- & Ha). destruct Hv as (Hn & Hv). rewrite Forall_app in Hv. destruct Hv as (Hv & Hv'). inversion Hv'; subst.
    rewrite encode_array in He. destruct (encode_seq_len t d before bs (size d)) as (L & B); auto; [ intros y b Hy Hb; apply (encode_len t m Ha Hy Hb) || exact (encode_len t _ _ _ _ Ha Hy Hb) | ].
    destruct IH as (L' & B'); auto. split; [ | now apply Forall_app ]. cbn [size]. rewrite !lenN_app, lenN_cons. rewrite L. lia.
  - rewrite accepts_struct in Ha. rewrite has_type_struct in Hv. rewrite encode_struct in He. destruct (member_room m fs ds name t fs' name' d ds' before x after bs Ha Hv He) as (H1 & H2 & H3 & H4).
    destruct IH as (L' & B'); auto. split; [ | now apply Forall_app ]. rewrite size_record, lenN_app. lia.
Qed.
(** Of a single value. *)
Lemma unstorable_whole m t ts v out msg : accepts m Writing t (DPlain ts) -> 0 < ts_size ts -> unstorable t (DPlain ts) v out msg ->
  (lenN out = size (DPlain ts) <-> string_type t /\ ts_char ts = TUnicodeStr).
Proof.
  intros Ha Hz H. assert (Hz' : 0 < size (DPlain ts)) by (cbn [size]; unfold scalar_size; destruct (ts_char ts); lia).
  inversion H as [ ? ? ? ? ? Ht | ? ? ? ? ? Ht | ? ? ? ? ? ? Ht Hl | ? ? ? ? ? Ht Hc Hl | ? ? ? ? ? Ht Hc Hl | | ]; subst;
    try (change (lenN []) with 0); try (split; [ lia | intros (Hs & Hc') ]).
  - exfalso. destruct Hs as [ -> | (n0 & ->) ], Ht as [ Ht | (n1 & Ht) ]; discriminate Ht.
  - exfalso. destruct Hs as [ -> | (n0 & ->) ], Ht as [ [ Ht | (n1 & Ht) ] | [ Ht | (n1 & Ht) ] ]; discriminate Ht.
  - rewrite utf32_len. cbn [size]. unfold scalar_size. assert (ts_char ts = TUnicodeStr) as Hc.
    { destruct Ht as [ -> | (n0 & ->) ]; cbn [accepts scalar_ok] in Ha; tauto. }
    rewrite Hc. rewrite lenN_app, lenN_cons in Hl. split; [ lia | ]. intros (Hs & _). exfalso. destruct Hs as [ -> | (n0 & ->) ], Ht as [ Ht | (n1 & Ht) ]; discriminate Ht.
  - rewrite utf32_len, lenN_takeN. cbn [size]. unfold scalar_size. rewrite Hc. split; [ auto | lia ].
  - contradiction.
Qed.

Lemma pushes_len c t d w vs rs data : wf_dtype d -> strings_fit (c_usize_max c) d -> writer c t d = DOk w -> Forall (has_type t) vs -> pushes t d vs rs data ->
  bytes_ok data /\ lenN data <= lenN vs * size d
  /\ (lenN data = lenN vs * size d <-> forall v out msg, In v vs -> unstorable t d v out msg -> lenN out = size d).
Proof.
  intros Hw Hs Hr Hvs Hp. assert (Ha : accepts (c_usize_max c) Writing t d) by (apply writer_accepts; eauto). revert Hvs.
  induction Hp as [ | v b vs rs bs He Hp IH | v out msg vs rs bs Hu Hp IH ]; intros Hvs.
  - split; [ constructor | ]. split; [ apply N.le_0_l | ]. split; [ intros _ v out msg [] | reflexivity ].
  - inversion Hvs; subst. destruct IH as (B & L & I); auto. destruct (encode_len t _ _ _ _ Ha H1 He) as (L' & B'). rewrite lenN_app, lenN_cons. split; [ now apply Forall_app | ]. split; [ lia | ].
    transitivity (lenN bs = lenN vs * size d); [ lia | ]. rewrite I. split; intros H v' out msg Hin Hu'; [ | eapply H; [ right; eauto | eauto ] ].
    destruct Hin as [ <- | Hin ]; [ | eapply H; eauto ]. destruct (one_unstorable c t d w v Hw Hs Hr H1) as [ (? & _ & Hno) | (Hno & _) ]; [ now apply Hno in Hu' | congruence ].
  - inversion Hvs; subst. destruct IH as (B & L & I); auto. destruct (unstorable_len _ _ _ _ _ _ Hu Ha H1) as (L' & B'). rewrite lenN_app, lenN_cons. split; [ now apply Forall_app | ]. split; [ lia | ].
    transitivity (lenN out = size d /\ lenN bs = lenN vs * size d); [ lia | ]. rewrite I. split.
    + intros (Ho & H) v' out' msg' [ <- | Hin ] Hu'; [ | eapply H; eauto ].
      destruct (one_unstorable c t d w v Hw Hs Hr H1) as [ (? & _ & Hno) | (_ & o1 & m1 & _ & Hun) ]; [ now apply Hno in Hu' | ].
      apply Hun in Hu as (-> & _), Hu' as (-> & _). exact Ho.
    + intros H. split; [ eapply H; [ left; reflexivity | exact Hu ] | ]. intros v' out' msg' Hin Hu'. eapply H; [ right; eauto | eauto ].
Qed.

(** * Finished sessions *)
Lemma final_ok h o n shape : hint_ok h -> n < 2 ^ 64 -> final_shape h o n = Some shape -> Forall (fun n => n < 2 ^ 64) shape /\ no_overflow shape /\ count shape = n.
Proof.
  intros Hh Hn Hf. destruct h as [ sh | r | ].
  - cbn [final_shape] in Hf. destruct (N.eqb_spec (count sh) n) as [ E | ]; [ | discriminate ]. apply Some_inj in Hf as <-. destruct Hh. auto.
  - apply (shape_with_ok (TwoDimensional r) o n shape I Hh Hn Hf). cbn [final_shape] in Hf. destruct (_ || _); [ discriminate | ]. apply Some_inj in Hf as <-. reflexivity.
  - apply (shape_with_ok OneDimensional o n shape I Hh Hn Hf). cbn [final_shape] in Hf. apply Some_inj in Hf as <-. reflexivity.
Qed.
Lemma shape_text_ascii h o shape sh reserve : shape_text h o shape sh reserve -> ascii_text sh.
Proof.
  assert (A : forall n ds, shortest_numeral ds n -> ascii_text ds) by (intros n ds H; apply shortest_unique in H; subst; apply dec_ascii).
  intros [ o' shape' sh' L | o' n ds L | r n ds rs L1 L2 | r n ds rs L1 L2 ].
  - induction L as [ | n l ds t H L IH ]; [ constructor | ]. apply Forall_app. split; [ exact (A _ _ H) | ]. apply Forall_app. split; [ plain_lit | exact IH ].
  - apply Forall_app. split; [ exact (A _ _ L) | plain_lit ].
  - apply Forall_app. split; [ exact (A _ _ L1) | ]. apply Forall_app. split; [ plain_lit | exact (A _ _ L2) ].
  - apply Forall_app. split; [ exact (A _ _ L2) | ]. apply Forall_app. split; [ plain_lit | exact (A _ _ L1) ].
Qed.
Lemma finished_bytes d o h shape payload file : wf_dtype d -> top_level d -> bytes_ok payload -> finished_file d o h shape payload file -> bytes_ok file.
Proof.
  intros Hw Ht Hb (sh & reserve & Hsh & Hl). destruct (laid_out_header _ _ _ _ _ _ Hw Hl) as (hdr & props & pad & Hh & ->). apply Forall_app. split; [ | exact Hb ].
  eapply header_bytes_ok; [ | exact Hh ]. apply Forall_app. split; [ | now apply Forall_repeatN ].
  unfold dict_bytes_of. rewrite <- dict_in. apply P_Text.utf8_bytes, dict_text_scalars; auto. apply (Forall_app _ [40]). split; [ plain_lit | ]. apply Forall_app. split; [ eapply shape_text_ascii; eauto | plain_lit ].
Qed.
Lemma counted c t d o h vs s rs s' : wf_dtype d -> strings_fit (c_usize_max c) d -> top_level d -> Forall (has_type t) vs -> lenN vs < 2 ^ 64 ->
  hint_ok h -> short_header d h -> sk_fuel s = None -> session c t d o h (output_kind h) vs Finished s = (Ok (rs, Ok tt), s') ->
  exists shape data file, final_shape h o (lenN vs) = Some shape /\ count shape = lenN vs /\ pushes t d vs rs data /\ finished_file d o h shape data file
  /\ placed (sk_data s) (sk_pos s) file (sk_data s') /\ file_with d o shape file data /\ bytes_ok file /\ lenN data <= lenN vs * size d
  /\ (lenN data = lenN vs * size d <-> forall v out msg, In v vs -> unstorable t d v out msg -> lenN out = size d).
Proof.
  intros Hw Hs Ht Hvs Hn Hh Hsh HN H. destruct (session_exact c t d o h vs Finished s Hw Hs Ht Hvs Hn Hh Hsh HN) as (r & file & s0 & E & O & P & _).
  rewrite H in E. apply pair_inj in E as (<- & <-). inversion O as [ | rs' r' data file' A Hp He Hl ]; subst. pose proof A as A'. apply writer_accepts in A' as (w & Hr).
  inversion He as [ e h' o' n shape Hf | | | ]; subst. destruct (final_ok h o (lenN vs) shape Hh Hn Hf) as (F1 & F2 & F3).
  unfold left_behind in Hl. rewrite Hf in Hl. destruct (pushes_len c t d w vs rs data Hw Hs Hr Hvs Hp) as (B & L & I).
  exists shape, data, file. repeat (split; [ now eauto using finished_opens, finished_bytes | ]). exact I.
Qed.
(** A file that lacks data is not read as a whole. *)
Lemma short_file c t d o shape file data f src' items : bytes_ok file -> file_with d o shape file data -> (exists n, num_bytes c d = Some n) -> strings_fit (c_usize_max c) d ->
  lenN data < count shape * size d -> npy_new c {| cur_data := file; cur_pos := 0 |} = (Ok f, src') -> fst (npy_into_vec c t f) <> Ok items.
Proof.
  intros Hb Hf Hc Hs Hl Hnew Hi. destruct (Hf c [] Hc) as (hd & H1 & H2 & H3 & H4 & H5). rewrite !app_nil_r in H1.
  pose proof (cursor_run c [] file) as Hr. rewrite H1 in Hr. cbn [app] in Hr. change (lenN []) with 0 in Hr. rewrite Hr in Hnew. apply pair_inj in Hnew as (Hnew & _). apply Ok_inj in Hnew. subst f.
  cbn zeta in *.
  match type of Hi with fst (npy_into_vec c t ?f) = _ => destruct (npy_data c t f) as [ r | e ] eqn:Ed end; [ | unfold npy_into_vec in Hi; rewrite Ed in Hi; discriminate Hi ].
  eapply into_vec_exact in Hi; [ | cbn [nf_header]; rewrite H2; exact Hs | | exact Hr | exact Ed ]; [ | exact Hb ].
  destruct Hi as (blocks & more & Hd & Hst & Hn). cbn [nf_header nf_src] in *. apply stored_len in Hst as (Hst1 & Hst2).
  unfold cur_rest in Hd. cbn [cur_data cur_pos] in Hd. destruct (run_suffix _ _ _ _ H1) as (pre & ->).
  rewrite (dropN_app _ pre data) in Hd by (rewrite lenN_app; lia). rewrite Hd, lenN_app, Hst1, Hn, H2, H5 in Hl. lia.
Qed.
