(** Messages about dtypes: proofs. *)
From Verif Require Import M_Base M_Text M_TypeStr M_PyLit M_IO M_Header M_Read M_Serialize M_DTypeErr M_NpyReader M_Write.
From Verif Require Import S_Text S_TypeStr S_TypeErr S_DType S_Shape S_Header S_Elem S_Reader S_Write S_DText S_Fault S_Reject S_Message.
From Verif Require Import P_Base P_Text P_TypeStr P_IO P_Shape P_Header P_Sink P_WriteHeader P_Elem P_DText P_Reader P_Array P_Writer P_WriteFile P_Session P_Whole P_Fault P_Reject P_Refuse T_Text.
Open Scope N_scope.

(** * Quoted names *)
Lemma debug_char_exact ch w : in_quotes ch w <-> w = debug_char ch.
Proof.
  unfold debug_char. split.
  - intros H. destruct H as [ ch l H | | ch h Hc Hn Hh | ch H1 H2 H3 H4 ].
    + cbn [own_escapes In] in H. repeat destruct H as [ [= <- <-] | H ]; [ reflexivity .. | contradiction ].
    + reflexivity.
    + apply hex_exact in Hh as ->. cbn [own_escapes map fst In] in Hn.
      destruct (N.eqb_spec ch 0); [ lia | ]. destruct (N.eqb_spec ch 9); [ lia | ]. destruct (N.eqb_spec ch 10); [ lia | ]. destruct (N.eqb_spec ch 13); [ lia | ].
      replace ((ch =? 34) || (ch =? 92)) with false by lia. replace ((ch <? 32) || (ch =? 127)) with true by lia. reflexivity.
    + replace (ch =? 0) with false by lia. replace (ch =? 9) with false by lia. replace (ch =? 10) with false by lia. replace (ch =? 13) with false by lia.
      replace ((ch =? 34) || (ch =? 92)) with false by lia. replace ((ch <? 32) || (ch =? 127)) with false by lia. reflexivity.
  - intros ->. destruct (N.eqb_spec ch 0) as [ -> | ]; [ apply (quotes_named 0 "0"); cbn; tauto | ].
    destruct (N.eqb_spec ch 9) as [ -> | ]; [ apply (quotes_named 9 "t"); cbn; tauto | ].
    destruct (N.eqb_spec ch 10) as [ -> | ]; [ apply (quotes_named 10 "n"); cbn; tauto | ].
    destruct (N.eqb_spec ch 13) as [ -> | ]; [ apply (quotes_named 13 "r"); cbn; tauto | ].
    destruct (N.eqb_spec ch 34) as [ -> | ]; [ apply quotes_mark | ].
    destruct (N.eqb_spec ch 92) as [ -> | ]; [ apply (quotes_named 92 "\"); cbn; tauto | ]. cbn [orb].
    destruct ((ch <? 32) || (ch =? 127)) eqn:E.
    + apply quotes_number; [ lia | cbn; lia | now apply hex_exact ].
    + apply quotes_self; lia.
Qed.
Lemma debug_chars_exact s : forall w, rust_chars s w <-> w = flat_map debug_char s.
Proof.
  induction s as [ | ch s IH ]; intros w; cbn [flat_map]; split.
  - intros H. inversion H. reflexivity.
  - intros ->. constructor.
  - intros H. inversion H as [ | ? ? w1 r1 H1 H2 ]; subst. apply debug_char_exact in H1 as ->. apply IH in H2 as ->. reflexivity.
  - intros ->. constructor; [ now apply debug_char_exact | now apply IH ].
Qed.
Lemma debug_str_exact s w : rust_quoted s w <-> w = debug_str s.
Proof.
  unfold rust_quoted, debug_str. split.
  - intros (r & H & ->). apply debug_chars_exact in H as ->. reflexivity.
  - intros ->. eexists. split; [ now apply debug_chars_exact | reflexivity ].
Qed.
Lemma debug_names_exact l : forall w, l <> [] -> rust_names l w <-> w = debug_strs_elements l.
Proof.
  induction l as [ | s l IH ]; intros w Hl; [ congruence | ]. destruct l as [ | s' l ].
  - cbn [debug_strs_elements]. rewrite <- debug_str_exact. split.
    + intros H. inversion H as [ ? ? H1 | ? ? ? ? H1 H2 ]; subst; [ assumption | inversion H2 ].
    + intros H. now constructor.
  - change (debug_strs_elements (s :: s' :: l)) with (debug_str s ++ lit ", " ++ debug_strs_elements (s' :: l)). split.
    + intros H. inversion H as [ | ? w1 ? r1 H1 H2 ]; subst. apply debug_str_exact in H1 as ->. apply IH in H2 as ->; [ reflexivity | discriminate ].
    + intros ->. constructor; [ now apply debug_str_exact | apply IH; [ discriminate | reflexivity ] ].
Qed.
Lemma debug_strs_exact l w : rust_list l w <-> w = debug_strs l.
Proof.
  unfold rust_list, debug_strs. destruct l as [ | s l ].
  - split; [ intros [ (_ & ->) | (r & H & _) ]; [ reflexivity | inversion H ] | intros ->; left; auto ].
  - split.
    + intros [ (H & _) | (r & H & ->) ]; [ discriminate | ]. apply debug_names_exact in H as ->; [ reflexivity | discriminate ].
    + intros ->. right. eexists. split; [ apply debug_names_exact; [ discriminate | reflexivity ] | reflexivity ].
Qed.

(** * Dtypes *)
Lemma dtype_shown_exact d : forall w, wf_dtype d -> dtype_shown d w <-> w = descr d.
Proof.
  induction d as [ ts | n d IH | fs _ ] using dtype_rect'; intros w Hw.
  - split; [ intros H; inversion H as [ d' w' H1 | ]; subst; now apply dtype_text_exact in H1 as (_ & ->) | ].
    intros ->. constructor. apply dtype_text_exact; [ auto | ]. split; [ exact I | reflexivity ].
  - cbn [wf_dtype] in Hw. destruct Hw as (Hn & Hw). cbn [descr]. split.
    + intros H. inversion H as [ d' w' H1 | n' d' ds w' H1 H2 ]; subst; [ inversion H1 | ]. apply IH in H2 as ->; [ | auto ]. apply decimal_exact in H1 as ->. reflexivity.
    + intros ->. constructor; [ now apply decimal_exact | now apply IH ].
  - split; [ intros H; inversion H as [ d' w' H1 | ]; subst; now apply dtype_text_exact in H1 as (_ & ->) | ].
    intros ->. constructor. apply dtype_text_exact; [ auto | ]. split; [ exact I | reflexivity ].
Qed.

(** * Errors *)
Definition error_wf (e : dterr) : Prop := match e with ExpectedScalar d _ | ExpectedRecord d => wf_dtype d | _ => True end.
Lemma message_exact e m : error_wf e -> message e m <-> m = dterr_display e.
Proof.
  destruct e as [ d who | got | ex ac | d | ex ac | ts who how | n | ]; cbn [error_wf dterr_display]; intros Hw; split; intros H;
    try (inversion H; subst; clear H); subst;
    repeat match goal with
    | H : dtype_shown _ _ |- _ => apply dtype_shown_exact in H as ->; [ | exact Hw ]
    | H : shortest_numeral _ _ |- _ => apply decimal_exact in H as ->
    | H : rust_list _ _ |- _ => apply debug_strs_exact in H as ->
    | H : shown _ _ |- _ => apply shown_exact in H as ->
    end; try reflexivity; constructor; try (now apply dtype_shown_exact); try (now apply decimal_exact); try (now apply debug_strs_exact); now apply shown_exact.
Qed.
Lemma rejects_wf m dir t d e : rejects m dir t d e -> wf_dtype d -> error_wf e.
Proof.
  induction 1 as [ t d | | | | | | n t d e H IH | | | fs name t fs' ds d ds' e Hn Hn' Ha Hr IH ]; intros Hw; cbn [error_wf]; try exact I; auto.
  - apply IH. exact (proj2 Hw).
  - apply IH. apply wf_record in Hw. apply Forall_app in Hw as (_ & Hw). apply Forall_inv in Hw. apply Hw.
Qed.
Lemma display_of_rejection m dir t d e msg : wf_dtype d -> rejects m dir t d e -> message e msg <-> msg = dterr_display e.
Proof. intros Hw Hr. apply message_exact. eapply rejects_wf; eauto. Qed.
Lemma one_message e m m' : error_wf e -> message e m -> message e m' -> m = m'.
Proof. intros Hw H H'. apply message_exact in H as ->; [ | auto ]. apply message_exact in H' as ->; auto. Qed.

(** * Names can be read off a message *)
Lemma split_first (sep : N) a : forall a' x x', ~ In sep a -> ~ In sep a' -> a ++ sep :: x = a' ++ sep :: x' -> a = a' /\ x = x'.
Proof.
  induction a as [ | u a IH ]; intros [ | u' a' ] x x' H H' E; cbn [app] in E.
  - injection E as ->. auto.
  - injection E as -> _. elim H'. now left.
  - injection E as -> _. elim H. now left.
  - injection E as -> E. apply IH in E as (-> & ->); [ auto | intros Hi; apply H; now right | intros Hi; apply H'; now right ].
Qed.
Lemma hex_no_brace n : ~ In 125 (hex n).
Proof. pose proof (hex_shortest n) as (H & _). rewrite Forall_forall in H. intros Hi. apply H in Hi. lia. Qed.
Lemma hex_inj n n' : hex n = hex n' -> n = n'.
Proof. intros E. pose proof (hex_shortest n) as (_ & H & _). pose proof (hex_shortest n') as (_ & H' & _). congruence. Qed.
Lemma debug_char_cases ch : (exists b, debug_char ch = [92; b] /\ b <> 117 /\ In (ch, b) [(0, 48); (9, 116); (10, 110); (13, 114); (34, 34); (92, 92)])
  \/ debug_char ch = [92; 117; 123] ++ hex ch ++ [125] \/ (debug_char ch = [ch] /\ ch <> 34 /\ ch <> 92).
Proof.
  unfold debug_char. destruct (N.eqb_spec ch 0) as [ -> | ]; [ left; exists 48; cbn; repeat split; [ discriminate | tauto ] | ].
  destruct (N.eqb_spec ch 9) as [ -> | ]; [ left; exists 116; cbn; repeat split; [ discriminate | tauto ] | ].
  destruct (N.eqb_spec ch 10) as [ -> | ]; [ left; exists 110; cbn; repeat split; [ discriminate | tauto ] | ].
  destruct (N.eqb_spec ch 13) as [ -> | ]; [ left; exists 114; cbn; repeat split; [ discriminate | tauto ] | ].
  destruct (N.eqb_spec ch 34) as [ -> | ]; [ left; exists 34; cbn; repeat split; [ discriminate | tauto ] | ].
  destruct (N.eqb_spec ch 92) as [ -> | ]; [ left; exists 92; cbn; repeat split; [ discriminate | tauto ] | ]. cbn [orb].
  destruct ((ch <? 32) || (ch =? 127)); [ right; left; reflexivity | right; right; auto ].
Qed.
Lemma debug_char_split ch ch' x x' : debug_char ch ++ x = debug_char ch' ++ x' -> ch = ch' /\ x = x'.
Proof.
  destruct (debug_char_cases ch) as [ (b & -> & Hu & Hb) | [ -> | (-> & Hq & Hs) ] ];
    destruct (debug_char_cases ch') as [ (b' & -> & Hu' & Hb') | [ -> | (-> & Hq' & Hs') ] ]; intros E; rewrite <- ?app_assoc in E; cbn [app] in E.
  - injection E as <- ->. split; [ | reflexivity ]. cbn [In] in *.
    repeat destruct Hb as [ [= <- <-] | Hb ]; repeat destruct Hb' as [ [= <-] | Hb' ]; tauto || reflexivity.
  - congruence.
  - congruence.
  - congruence.
  - injection E as E. apply split_first in E as (E & ->); auto using hex_no_brace. apply hex_inj in E. auto.
  - congruence.
  - congruence.
  - congruence.
  - injection E as -> ->. auto.
Qed.
Lemma debug_char_head ch x r : debug_char ch ++ x <> 34 :: r.
Proof. destruct (debug_char_cases ch) as [ (b & -> & _) | [ -> | (-> & Hq & Hs) ] ]; cbn [app]; congruence. Qed.
Lemma debug_str_split s : forall s' x x', debug_str s ++ x = debug_str s' ++ x' -> s = s' /\ x = x'.
Proof.
  unfold debug_str. induction s as [ | ch s IH ]; intros [ | ch' s' ] x x' E; cbn [flat_map] in E; rewrite <- ?app_assoc in E; cbn [app] in E.
  - injection E as ->. auto.
  - injection E as E. symmetry in E. now apply debug_char_head in E.
  - injection E as E. now apply debug_char_head in E.
  - injection E as E. apply debug_char_split in E as (-> & E).
    destruct (IH s' x x') as (-> & ->); [ | auto ]. rewrite <- !app_assoc. cbn [app]. now rewrite E.
Qed.
Lemma debug_strs_split l : forall l' x x', debug_strs_elements l ++ 93 :: x = debug_strs_elements l' ++ 93 :: x' -> l = l' /\ x = x'.
Proof.
  assert (More : forall s l, exists r, forall x, debug_strs_elements (s :: l) ++ 93 :: x = debug_str s ++ r ++ 93 :: x).
  { intros s [ | s' l0 ]; [ now exists [] | ]. eexists. intros x. change (debug_strs_elements (s :: s' :: l0)) with (debug_str s ++ lit ", " ++ debug_strs_elements (s' :: l0)).
    rewrite <- app_assoc. reflexivity. }
  induction l as [ | s l IH ]; intros [ | s' l' ] x x' E.
  - injection E as ->. auto.
  - destruct (More s' l') as (r & Hr). rewrite Hr in E. discriminate.
  - destruct (More s l) as (r & Hr). rewrite Hr in E. discriminate.
  - destruct l as [ | s1 l ]; destruct l' as [ | s1' l' ].
    + apply debug_str_split in E as (-> & E). injection E as ->. auto.
    + change (debug_strs_elements (s' :: s1' :: l')) with (debug_str s' ++ lit ", " ++ debug_strs_elements (s1' :: l')) in E. rewrite <- app_assoc in E.
      apply debug_str_split in E as (_ & E). discriminate.
    + change (debug_strs_elements (s :: s1 :: l)) with (debug_str s ++ lit ", " ++ debug_strs_elements (s1 :: l)) in E. rewrite <- app_assoc in E.
      apply debug_str_split in E as (_ & E). discriminate.
    + change (debug_strs_elements (s' :: s1' :: l')) with (debug_str s' ++ lit ", " ++ debug_strs_elements (s1' :: l')) in E.
      change (debug_strs_elements (s :: s1 :: l)) with (debug_str s ++ lit ", " ++ debug_strs_elements (s1 :: l)) in E. rewrite <- !app_assoc in E.
      apply debug_str_split in E as (-> & E). apply app_inv_head in E. apply IH in E as (-> & ->). auto.
Qed.
Lemma names_recovered ex ac ex' ac' m : message (WrongFields ex ac) m -> message (WrongFields ex' ac') m -> ex = ex' /\ ac = ac'.
Proof.
  intros H H'. apply message_exact in H; [ | exact I ]. apply message_exact in H'; [ | exact I ]. subst m. cbn [dterr_display] in H'.
  apply app_inv_head in H'. unfold debug_strs in H'. rewrite <- !app_assoc in H'. apply app_inv_head in H'.
  apply debug_strs_split in H' as (-> & H'). apply app_inv_head in H'. rewrite <- ?app_assoc in H'. cbn [app] in H'.
  apply app_inv_head in H'. apply debug_strs_split in H' as (-> & _). auto.
Qed.

(** * Reading *)
Lemma data_complaint c t src f src' msg : bytes_ok (cur_data src) -> npy_new c src = (Ok f, src') -> read_complaint (c_usize_max c) t (h_dtype (nf_header f)) msg ->
  exists e, npy_data c t f = DErr e /\ msg = dterr_display e.
Proof.
  intros Hb Hf Hc. pose proof (opened c src f src' Hb Hf) as (Hw & _).
  destruct Hc as [ (Ho & Hm) | (Ho & e & Hr & Hm) ].
  - exists RequiresPickle. split; [ now apply (object_refused c t src f src' Hf) | ]. now apply message_exact in Hm.
  - exists e. split; [ apply (data_rejects c t src f src' e Hf); auto | ]. now apply (display_of_rejection _ _ _ _ _ _ Hw Hr) in Hm.
Qed.
Lemma into_vec_complains c t src f src' msg : bytes_ok (cur_data src) -> npy_new c src = (Ok f, src') -> read_complaint (c_usize_max c) t (h_dtype (nf_header f)) msg ->
  npy_into_vec c t f = (Err (EData msg), nf_src f).
Proof. intros Hb Hf Hc. destruct (data_complaint _ _ _ _ _ _ Hb Hf Hc) as (e & He & ->). unfold npy_into_vec. now rewrite He. Qed.
Lemma legacy_complains c t bs f src' msg : bytes_ok bs -> npy_new c {| cur_data := bs; cur_pos := 0 |} = (Ok f, src') -> read_complaint (c_usize_max c) t (h_dtype (nf_header f)) msg ->
  nd_from_bytes c t bs = Err (EData msg).
Proof. intros Hb Hf Hc. destruct (data_complaint c t {| cur_data := bs; cur_pos := 0 |} _ _ _ Hb Hf Hc) as (e & He & ->). unfold nd_from_bytes. now rewrite Hf, He. Qed.
Lemma complaint_exists c t src f src' : bytes_ok (cur_data src) -> npy_new c src = (Ok f, src') ->
  (exists msg, read_complaint (c_usize_max c) t (h_dtype (nf_header f)) msg) <-> ~ exists r, npy_data c t f = DOk r.
Proof.
  intros Hb Hf. split.
  - intros (msg & Hc) (r & Hr). destruct (data_complaint _ _ _ _ _ _ Hb Hf Hc) as (e & He & _). congruence.
  - intros Hn. destruct (npy_data c t f) as [ r | e ] eqn:E; [ elim Hn; eauto | ]. exists (dterr_display e).
    apply (data_rejects c t src f src' e Hf) in E as [ (Ho & ->) | (Ho & Hr) ].
    + left. split; [ auto | ]. now apply message_exact.
    + right. split; [ auto | ]. exists e. split; [ auto | ]. apply (display_of_rejection _ _ _ _ _ _ (proj1 (opened c src f src' Hb Hf)) Hr). reflexivity.
Qed.

(** * Writing *)
Lemma begin_complains c t d o h s msg dict info : wf_dtype d -> top_level d -> create_dict c d o h = Ok (dict, info) -> header_fits dict ->
  write_complaint (c_usize_max c) t d msg -> sk_fuel s = None -> exists s', begin_ c t d o h (output_kind h) s = (Err (EData msg), s').
Proof.
  intros Hw Ht Hc Hf (e & Hr & Hm) Hn. apply (display_of_rejection _ _ _ _ _ _ Hw Hr) in Hm as ->.
  destruct (begin_refused c t d o h s e dict info Ht Hc Hf Hr Hn) as (hdr & props & pad & _ & H). eauto.
Qed.
Lemma writer_complains c t d o h s msg : wf_dtype d -> top_level d -> hint_ok h -> short_header d h ->
  write_complaint (c_usize_max c) t d msg -> sk_fuel s = None -> exists s', begin_ c t d o h (output_kind h) s = (Err (EData msg), s').
Proof.
  intros Hw Ht Hh Hs Hc Hn. destruct (create_short c d o h Hh Hs) as (dict & info & Hd & Hf). eapply begin_complains; eauto.
Qed.
