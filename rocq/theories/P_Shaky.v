(** Writers over outputs whose calls fail now and then. *)
From Verif Require Import M_Base M_Text M_TypeStr M_PyLit M_IO M_Header M_Read M_Serialize M_DTypeErr M_NpyReader M_Write M_Buffered M_Shaky.
From Verif Require Import S_Text S_TypeStr S_DType S_Shape S_Header S_Elem S_Strings S_Reader S_Write S_Reject S_DText S_File S_Fault S_Message S_Outcome S_Shaky.
From Verif Require Import P_Base P_Text P_TypeStr P_PyLit P_Header P_IO P_Sink P_Shape P_WriteHeader P_Number P_Elem P_ReadOne P_WriteOne P_Codec P_Sizes P_Strings P_Parse P_Default P_ElemT P_Reader P_Array P_Writer P_WriteFile P_Session P_Whole T_Text P_DText P_File P_Reject P_Refuse P_Fault P_Message P_Outcome P_Buffered P_Crash P_Counted.
Require Import ZifyBool ZifyNat ZifyN.
Open Scope N_scope.

(** * Single calls *)
Definition on (s : sink) (plan : list (option N)) : shaky := {| y_out := s; y_plan := plan |}.
Lemma put_same s f : sk_fuel s = f -> put s [] f = s.
Proof. intros <-. rewrite put_nil. now destruct s. Qed.
Lemma shaky_write_cases bs y : sk_fuel (y_out y) = None ->
  (exists plan, shaky_write bs y = (Ok tt, on (put (y_out y) bs None) plan))
  \/ (exists part plan, shaky_write bs y = (Err ESink, on (put (y_out y) part None) plan) /\ cut_short part bs).
Proof.
  intros HN. unfold shaky_write. destruct bs as [ | x bs ]; [ left; exists (y_plan y); rewrite put_same by auto; now destruct y | ]. set (b := x :: bs).
  destruct (y_plan y) as [ | [ j | ] plan ]; rewrite ?sink_write_none by auto; try (left; eexists; reflexivity).
  destruct (N.ltb_spec j (lenN b)); [ right | left; eexists; reflexivity ]. exists (takeN j b), plan. split; [ reflexivity | ].
  exists (dropN j b). split; [ now rewrite takeN_dropN | ]. intros E. apply (f_equal lenN) in E. rewrite lenN_dropN, lenN_nil in E. lia.
Qed.
Lemma shaky_write_good bs s : sk_fuel s = None -> exists plan, forall more, shaky_write bs (on s (plan ++ more)) = (Ok tt, on (put s bs None) more).
Proof.
  intros HN. destruct bs as [ | x bs ]; [ exists []; intros more; cbn [shaky_write app]; now rewrite put_same by auto | ]. exists [None]. intros more. unfold shaky_write, on. cbn [app y_plan y_out].
  now rewrite sink_write_none by auto.
Qed.
Lemma shaky_write_bad bs part s more : sk_fuel s = None -> cut_short part bs -> shaky_write bs (on s (Some (lenN part) :: more)) = (Err ESink, on (put s part None) more).
Proof.
  intros HN (rest & -> & Hr). unfold shaky_write, on. cbn [y_plan y_out]. rewrite lenN_app.
  assert (0 < lenN rest). { destruct rest; [ congruence | rewrite lenN_cons; lia ]. }
  replace (lenN part <? lenN part + lenN rest) with true by lia. rewrite takeN_app by auto. rewrite sink_write_none by auto.
  destruct (part ++ rest) as [ | ] eqn:E; [ | reflexivity ]. apply app_eq_nil in E as (_ & ->). congruence.
Qed.
Lemma shaky_call_cases {A} (f : sink -> res A * sink) a s' y : f (y_out y) = (Ok a, s') ->
  (exists plan, shaky_call f y = (Ok a, on s' plan)) \/ (exists plan, shaky_call f y = (Err ESink, on (y_out y) plan)).
Proof. intros H. unfold shaky_call. destruct (y_plan y) as [ | [ j | ] plan ]; rewrite ?H; [ left | right | left ]; eexists; reflexivity. Qed.

(** * Without trouble *)
Lemma calm_write bs s : shaky_write bs (on s []) = let '(r, s') := sink_write bs s in (r, on s' []).
Proof. destruct bs; [ cbn [shaky_write]; now rewrite write_nil | reflexivity ]. Qed.
Lemma calm {A} (p : wprog A) : forall s, run_shaky p (on s []) = let '(r, s') := run_sink p s in (r, on s' []).
Proof.
  induction p as [ r | bs k IH | k IH | q k IH | k IH ]; intros s; cbn [run_shaky run_sink].
  - reflexivity.
  - rewrite calm_write. destruct (sink_write bs s) as ([ | | ], s'); auto.
  - unfold shaky_call. cbn [on y_plan y_out tl]. destruct (sink_tell s) as ([ | | ], s'); try reflexivity. apply IH.
  - unfold shaky_call. cbn [on y_plan y_out tl]. destruct (sink_seek q s) as ([ | | ], s'); try reflexivity. apply IH.
  - unfold shaky_call. cbn [on y_plan y_out tl]. destruct (sink_flush s) as ([ | | ], s'); try reflexivity. apply IH.
Qed.
Lemma calm_push c v w s : push_on (@run_shaky) c v w (on s []) = let '(r, w', s') := push c v w s in (r, w', on s' []).
Proof.
  rewrite <- push_same. unfold push_on. destruct (u64_add c (w_num_items w) 1); try reflexivity. destruct (write_one c (w_writer w) v) as (bs, r). rewrite calm. now destruct (run_sink _ s).
Qed.
Lemma calm_push_each c vs : forall w s, push_each_on (@run_shaky) c vs w (on s []) = let '(rs, w', s') := push_each c vs w s in (rs, w', on s' []).
Proof.
  induction vs as [ | v vs IH ]; intros w s; cbn [push_each_on push_each]; [ reflexivity | ]. rewrite calm_push. destruct (push c v w s) as ((r, w'), s'). rewrite IH.
  now destruct (push_each c vs w' s') as ((rs, w''), s'').
Qed.
Lemma calm_drop w s : drop_on (@run_shaky) w (on s []) = let '(r, s') := drop_writer w s in (r, on s' []).
Proof. rewrite <- drop_same. unfold drop_on. rewrite calm. destruct (run_sink (finish_p w) s) as ([ | | ], s'); reflexivity. Qed.
Lemma calm_finish w s : finish_on (@run_shaky) w (on s []) = let '(r, s') := finish w s in (r, on s' []).
Proof.
  rewrite <- finish_all_same. unfold finish_on. rewrite calm. destruct (run_sink (finish_p w) s) as ([ | | ], s'); rewrite calm_drop, drop_same; destruct (drop_writer w s') as ([ | | ], s''); reflexivity.
Qed.
Lemma calm_ended e w s : ended_on (@run_shaky) e w (on s []) = let '(r, s') := ended e w s in (r, on s' []).
Proof. destruct e; [ apply calm_finish | apply calm_drop ]. Qed.
Lemma calm_session c t d o h k vs e s : session_on (@run_shaky) c t d o h k vs e (on s []) = let '(r, s') := session c t d o h k vs e s in (r, on s' []).
Proof.
  unfold session_on, session. rewrite calm, begin_same. destruct (begin_ c t d o h k s) as ([ w | | ], s1); try reflexivity. rewrite calm_push_each.
  destruct (push_each c vs w s1) as ((rs, w'), s2). rewrite calm_ended. now destruct (ended e w' s2).
Qed.

(** * Programs that only write *)
Fixpoint out_of {A} (p : wprog A) : option (bytes * res A) :=
  match p with
  | WRet r => Some ([], r)
  | WWrite bs k => match out_of k with Some (b, r) => Some (bs ++ b, r) | None => None end
  | _ => None
  end.
Lemma out_bind {A B} (p : wprog A) (f : A -> wprog B) : forall b r, out_of p = Some (b, r) ->
  match r with
  | Ok a => forall b' r', out_of (f a) = Some (b', r') -> out_of (wbind p f) = Some (b ++ b', r')
  | Err e => out_of (wbind p f) = Some (b, Err e)
  | Panic => out_of (wbind p f) = Some (b, Panic)
  end.
Proof.
  induction p as [ r0 | bs k IH | k IH | q k IH | k IH ]; intros b r H; cbn [out_of] in H; try discriminate.
  - injection H as <- <-. destruct r0; cbn [wbind app]; auto.
  - destruct (out_of k) as [ (b1, r1) | ]; [ | discriminate ]. injection H as <- <-. specialize (IH _ _ eq_refl). destruct r1; cbn [wbind out_of].
    + intros b' r' E. rewrite (IH _ _ E). now rewrite app_assoc.
    + now rewrite IH.
    + now rewrite IH.
Qed.
Lemma out_sink {A} (p : wprog A) : forall b r s, out_of p = Some (b, r) -> sk_fuel s = None -> run_sink p s = (r, put s b None).
Proof.
  induction p as [ r0 | bs k IH | k IH | q k IH | k IH ]; intros b r s H HN; cbn [out_of] in H; try discriminate.
  - injection H as <- <-. cbn [run_sink]. now rewrite put_same.
  - destruct (out_of k) as [ (b1, r1) | ]; [ | discriminate ]. injection H as <- <-. cbn [run_sink]. rewrite sink_write_none by auto. rewrite (IH _ _ _ eq_refl) by reflexivity. now rewrite put_put.
Qed.
Lemma cut_app a part b : cut_short part b -> cut_short (a ++ part) (a ++ b).
Proof. intros (rest & -> & Hr). exists rest. split; [ now rewrite <- app_assoc | auto ]. Qed.
Lemma cut_longer part a b : cut_short part a -> cut_short part (a ++ b).
Proof. intros (rest & -> & Hr). exists (rest ++ b). split; [ now rewrite <- app_assoc | ]. intros E. apply app_eq_nil in E as (-> & _). congruence. Qed.
Lemma out_cases {A} (p : wprog A) : forall b r y, out_of p = Some (b, r) -> sk_fuel (y_out y) = None ->
  (exists plan, run_shaky p y = (r, on (put (y_out y) b None) plan))
  \/ (exists part plan, run_shaky p y = (Err ESink, on (put (y_out y) part None) plan) /\ cut_short part b).
Proof.
  induction p as [ r0 | bs k IH | k IH | q k IH | k IH ]; intros b r y H HN; cbn [out_of] in H; try discriminate.
  - injection H as <- <-. left. exists (y_plan y). cbn [run_shaky]. rewrite put_same by auto. now destruct y.
  - destruct (out_of k) as [ (b1, r1) | ]; [ | discriminate ]. injection H as <- <-. cbn [run_shaky].
    destruct (shaky_write_cases bs y HN) as [ (plan & E) | (part & plan & E & Hc) ]; rewrite E.
    + destruct (IH _ _ (on (put (y_out y) bs None) plan) eq_refl eq_refl) as [ (plan' & E') | (part & plan' & E' & Hc) ]; rewrite E'; cbn [on y_out]; rewrite put_put; [ left; eauto | right ].
      exists (bs ++ part), plan'. split; [ reflexivity | now apply cut_app ].
    + right. exists part, plan. split; [ reflexivity | now apply cut_longer ].
Qed.
Lemma out_good {A} (p : wprog A) : forall b r, out_of p = Some (b, r) -> exists plan, forall s more, sk_fuel s = None -> run_shaky p (on s (plan ++ more)) = (r, on (put s b None) more).
Proof.
  induction p as [ r0 | bs k IH | k IH | q k IH | k IH ]; intros b r H; cbn [out_of] in H; try discriminate.
  - injection H as <- <-. exists []. intros s more HN. cbn [run_shaky app]. now rewrite put_same.
  - destruct (out_of k) as [ (b1, r1) | ]; [ | discriminate ]. injection H as <- <-. destruct (IH _ _ eq_refl) as (plan & E).
    exists (match bs with [] => plan | _ => None :: plan end). intros s more HN. cbn [run_shaky].
    assert (E' : shaky_write bs (on s (match bs with [] => plan | _ => None :: plan end ++ more)) = (Ok tt, on (put s bs None) (plan ++ more))).
    { destruct bs; cbn [shaky_write app]; [ now rewrite put_same | ]. unfold on. cbn [y_plan y_out]. now rewrite sink_write_none. }
    rewrite E', E by reflexivity. now rewrite put_put.
Qed.
Lemma out_bad {A} (p : wprog A) : forall b r part, out_of p = Some (b, r) -> cut_short part b ->
  exists plan, forall s more, sk_fuel s = None -> run_shaky p (on s (plan ++ more)) = (Err ESink, on (put s part None) more).
Proof.
  induction p as [ r0 | bs k IH | k IH | q k IH | k IH ]; intros b r part H Hc; cbn [out_of] in H; try discriminate.
  - injection H as <- <-. destruct Hc as (rest & E & Hr). symmetry in E. apply app_eq_nil in E as (_ & ->). congruence.
  - destruct (out_of k) as [ (b1, r1) | ] eqn:Ek; [ | discriminate ]. injection H as <- <-. destruct Hc as (rest & E & Hr).
    destruct (N.ltb_spec (lenN part) (lenN bs)) as [ Hl | Hl ].
    + assert (Hc : cut_short part bs).
      { exists (dropN (lenN part) bs). assert (Ep : part = takeN (lenN part) bs).
        { apply (f_equal (takeN (lenN part))) in E. rewrite (takeN_app (lenN part) part rest) in E by auto. rewrite <- E at 1.
          rewrite <- (takeN_dropN (lenN part) bs) at 1. rewrite <- app_assoc. apply takeN_app. rewrite lenN_takeN. lia. }
        split; [ rewrite Ep at 1; now rewrite takeN_dropN | ]. intros E0. apply (f_equal lenN) in E0. rewrite lenN_dropN, lenN_nil in E0. lia. }
      exists [Some (lenN part)]. intros s more HN. cbn [run_shaky app]. now rewrite shaky_write_bad.
    + assert (Hp : exists p2, part = bs ++ p2 /\ b1 = p2 ++ rest).
      { assert (Eb : bs = takeN (lenN bs) part).
        { apply (f_equal (takeN (lenN bs))) in E. rewrite takeN_app in E by auto. rewrite E at 1. rewrite <- (takeN_dropN (lenN bs) part) at 1. rewrite <- app_assoc. apply takeN_app. rewrite lenN_takeN. lia. }
        exists (dropN (lenN bs) part). assert (Ep : part = bs ++ dropN (lenN bs) part) by (rewrite Eb at 1; now rewrite takeN_dropN). split; [ exact Ep | ].
        rewrite Ep in E. rewrite <- app_assoc in E. now apply app_inv_head in E. }
      destruct Hp as (p2 & -> & ->). destruct (IH _ _ p2 eq_refl) as (plan & E'); [ exists rest; auto | ].
      exists (match bs with [] => plan | _ => None :: plan end). intros s more HN. cbn [run_shaky].
      assert (E2 : shaky_write bs (on s (match bs with [] => plan | _ => None :: plan end ++ more)) = (Ok tt, on (put s bs None) (plan ++ more))).
      { destruct bs; cbn [shaky_write app]; [ now rewrite put_same | ]. unfold on. cbn [y_plan y_out]. now rewrite sink_write_none. }
      rewrite E2, E' by reflexivity. now rewrite put_put.
Qed.

(** * Beginning *)
Definition begin_rest (c : cfg) (t : rty) (d : dtype) (o : order) (h : shape_hint) (seekable : bool) (start : option N) : wprog npy_writer :=
  wbind (write_header_p c d o h) (fun ip =>
    match writer c t d with
    | DErr e => WRet (Err (EData (dterr_display e)))
    | DOk tw => WRet (Ok {| w_start_pos := start; w_shape_info := fst ip; w_num_items := 0; w_seekable := seekable;
                            w_writer := tw; w_version_props := snd ip |})
    end).
Lemma header_out c d o h : exists b r, out_of (write_header_p c d o h) = Some (b, r).
Proof.
  assert (G : forall d', exists b r, out_of (wbind (WRet (create_dict c d' o h)) (fun di =>
    wbind (WRet (determine_required_version_and_pad_header (fst di))) (fun hvp =>
    let '(txt, version, props) := hvp in
    WWrite [0x93] (WWrite (lit "NUMPY") (WWrite [fst version; snd version] (
    if negb ((lenN txt + bytes_before_text props) mod 16 =? 0) then WRet Panic
    else
      let rest := WWrite txt (WRet (Ok (snd di, props))) in
      if vp_u32 props then (if lenN txt <=? 2 ^ 32 - 1 then WWrite (le_bytes 4 (lenN txt)) rest else WRet Panic)
      else (if lenN txt <=? 2 ^ 16 - 1 then WWrite (le_bytes 2 (lenN txt)) rest else WRet Panic))))))) = Some (b, r)).
  { intros d'. cbn [wbind]. destruct (create_dict c d' o h) as [ di | e | ]; [ | eexists _, _; reflexivity | eexists _, _; reflexivity ].
    destruct (determine_required_version_and_pad_header (fst di)) as [ ((txt, version), props) | e | ]; [ | eexists _, _; reflexivity | eexists _, _; reflexivity ].
    cbn [out_of]. destruct (negb _); [ eexists _, _; reflexivity | ]. destruct (vp_u32 props); destruct (_ <=? _); eexists _, _; reflexivity. }
  unfold write_header_p. destruct d; [ apply G | eexists _, _; reflexivity | apply G ].
Qed.
Lemma begin_rest_out c t d o h k start : exists b r, out_of (begin_rest c t d o h k start) = Some (b, r).
Proof.
  unfold begin_rest. destruct (header_out c d o h) as (b & r & E). pose proof (out_bind (write_header_p c d o h) (fun ip => match writer c t d with
    | DErr e => WRet (Err (EData (dterr_display e)))
    | DOk tw => WRet (Ok {| w_start_pos := start; w_shape_info := fst ip; w_num_items := 0; w_seekable := k; w_writer := tw; w_version_props := snd ip |}) end) b r E) as H.
  destruct r; [ | eauto | eauto ]. destruct (writer c t d); eexists _, _; apply H; reflexivity.
Qed.
(** On an output that works, it writes [b] and returns [r]. *)
Definition begun_with (c : cfg) (t : rty) (d : dtype) (o : order) (h : shape_hint) (k : bool) (s : sink) (b : bytes) (r : res npy_writer) : Prop :=
  out_of (begin_rest c t d o h k (if k then Some (sk_pos s) else None)) = Some (b, r).
Lemma begun_with_begin c t d o h k s b r : sk_fuel s = None -> begun_with c t d o h k s b r -> begin_ c t d o h k s = (r, put s b None).
Proof.
  intros HN H. rewrite <- begin_same. unfold begin_p. fold (begin_rest c t d o h k). unfold begun_with in H. destruct k.
  - cbn [run_sink]. unfold sink_tell. rewrite tick_none by auto. now apply (out_sink _ _ _ _ H).
  - now apply (out_sink _ _ _ _ H).
Qed.
Lemma begin_p_rest c t d o h k : begin_p c t d o h k = if k then WTell (fun p => begin_rest c t d o h k (Some p)) else begin_rest c t d o h k None.
Proof. reflexivity. Qed.
Lemma begin_cases c t d o h k y b r : sk_fuel (y_out y) = None -> begun_with c t d o h k (y_out y) b r ->
  (exists plan, run_shaky (begin_p c t d o h k) y = (r, on (put (y_out y) b None) plan))
  \/ (exists part plan, run_shaky (begin_p c t d o h k) y = (Err ESink, on (put (y_out y) part None) plan) /\ (cut_short part b \/ part = [])).
Proof.
  intros HN H. rewrite begin_p_rest. unfold begun_with in H. destruct k.
  - cbn [run_shaky]. destruct (shaky_call_cases sink_tell (sk_pos (y_out y)) (y_out y) y) as [ (plan & E) | (plan & E) ]; [ unfold sink_tell; now rewrite tick_none | | ]; rewrite E.
    + destruct (out_cases _ _ _ (on (y_out y) plan) H HN) as [ (plan' & E') | (part & plan' & E' & Hc) ]; rewrite E'; [ left | right ]; eauto 6.
    + right. exists [], plan. rewrite put_same by auto. auto.
  - destruct (out_cases _ _ _ y H HN) as [ (plan' & E') | (part & plan' & E' & Hc) ]; rewrite E'; [ left | right ]; eauto 6.
Qed.
Lemma begin_good c t d o h k s b r : sk_fuel s = None -> begun_with c t d o h k s b r ->
  exists plan, forall more, run_shaky (begin_p c t d o h k) (on s (plan ++ more)) = (r, on (put s b None) more).
Proof.
  intros HN H. rewrite begin_p_rest. unfold begun_with in H. destruct (out_good _ _ _ H) as (plan & E). destruct k; [ exists (None :: plan) | exists plan ]; intros more.
  - cbn [run_shaky]. unfold shaky_call, sink_tell. cbn [app on y_plan y_out tl]. rewrite tick_none by auto. now apply E.
  - now apply E.
Qed.
Lemma begin_bad c t d o h k s b r part : sk_fuel s = None -> begun_with c t d o h k s b r -> cut_short part b ->
  exists plan, run_shaky (begin_p c t d o h k) (on s plan) = (Err ESink, on (put s part None) []).
Proof.
  intros HN H Hc. rewrite begin_p_rest. unfold begun_with in H. destruct (out_bad _ _ _ _ H Hc) as (plan & E). destruct k; [ exists (None :: plan) | exists plan ].
  - cbn [run_shaky]. unfold shaky_call, sink_tell. cbn [on y_plan y_out tl]. rewrite tick_none by auto. specialize (E s [] HN). rewrite app_nil_r in E. exact E.
  - specialize (E s [] HN). rewrite app_nil_r in E. exact E.
Qed.

(** * Pushing *)
Lemma push_shaky c v w y bs r : w_num_items w + 1 < 2 ^ 64 -> write_one c (w_writer w) v = (bs, r) ->
  push_on (@run_shaky) c v w y = (let '(r', y') := run_shaky (WWrite bs (WRet r)) y in (r', with_count w (w_num_items w + 1), y')).
Proof. intros Hn E. unfold push_on. rewrite u64_add_small by auto. rewrite E. reflexivity. Qed.
Lemma pushes_sound c t d vs : wf_dtype d -> strings_fit (c_usize_max c) d -> Forall (has_type t) vs -> forall w y, writer c t d = DOk (w_writer w) ->
  w_num_items w + lenN vs < 2 ^ 64 -> sk_fuel (y_out y) = None ->
  exists rs data plan, push_each_on (@run_shaky) c vs w y = (rs, with_count w (w_num_items w + lenN vs), on (put (y_out y) data None) plan) /\ shaky_pushes t d vs rs data.
Proof.
  intros Hw Hs Hvs. induction Hvs as [ | v vs Hv Hvs IH ]; intros w y Hr Hn HN.
  - exists [], [], (y_plan y). cbn [push_each_on]. change (lenN (@nil val)) with 0. rewrite N.add_0_r, with_count_id, put_same by auto. split; [ now destruct y | constructor ].
  - rewrite lenN_cons in *. cbn [push_each_on].
    assert (G : forall bs r, write_one c (w_writer w) v = (bs, r) ->
      (forall rs data, shaky_pushes t d vs rs data -> shaky_pushes t d (v :: vs) (r :: rs) (bs ++ data)) ->
      (forall part rs data, cut_short part bs -> shaky_pushes t d vs rs data -> shaky_pushes t d (v :: vs) (Err ESink :: rs) (part ++ data)) ->
      exists rs data plan, (let '(r, w', y') := push_on (@run_shaky) c v w y in let '(rs, w'', y'') := push_each_on (@run_shaky) c vs w' y' in (r :: rs, w'', y''))
        = (rs, with_count w (w_num_items w + (lenN vs + 1)), on (put (y_out y) data None) plan) /\ shaky_pushes t d (v :: vs) rs data).
    { intros bs r E H1 H2. rewrite (push_shaky c v w y bs r) by (auto; lia).
      destruct (out_cases (WWrite bs (WRet r)) bs r y) as [ (plan & E1) | (part & plan & E1 & Hc) ]; auto; [ cbn [out_of]; now rewrite app_nil_r | | ]; rewrite E1.
      - destruct (IH (with_count w (w_num_items w + 1)) (on (put (y_out y) bs None) plan) Hr) as (rs & data & plan' & E2 & P); [ cbn [with_count w_num_items]; lia | reflexivity | ].
        rewrite E2. exists (r :: rs), (bs ++ data), plan'. split; [ | auto ]. cbn [on y_out]. rewrite put_put. f_equal. f_equal. cbn [with_count w_num_items].
        transitivity (with_count w (w_num_items w + 1 + lenN vs)); [ reflexivity | f_equal; lia ].
      - destruct (IH (with_count w (w_num_items w + 1)) (on (put (y_out y) part None) plan) Hr) as (rs & data & plan' & E2 & P); [ cbn [with_count w_num_items]; lia | reflexivity | ].
        rewrite E2. exists (Err ESink :: rs), (part ++ data), plan'. split; [ | auto ]. cbn [on y_out]. rewrite put_put. f_equal. f_equal. cbn [with_count w_num_items].
        transitivity (with_count w (w_num_items w + 1 + lenN vs)); [ reflexivity | f_equal; lia ]. }
    replace (1 + lenN vs) with (lenN vs + 1) by lia.
    destruct (storable c t d (w_writer w) v Hw Hs Hr Hv) as [ (b & Eb & E) | (out & msg & Eu & E) ]; apply (G _ _ E); intros.
    + now constructor.
    + econstructor; eauto.
    + now constructor.
    + eapply sp_stopped; eauto.
Qed.
Lemma pushes_complete c t d vs : wf_dtype d -> strings_fit (c_usize_max c) d -> Forall (has_type t) vs -> forall rs data, shaky_pushes t d vs rs data ->
  forall w, writer c t d = DOk (w_writer w) -> w_num_items w + lenN vs < 2 ^ 64 ->
  exists plan, forall s more, sk_fuel s = None ->
  push_each_on (@run_shaky) c vs w (on s (plan ++ more)) = (rs, with_count w (w_num_items w + lenN vs), on (put s data None) more).
Proof.
  intros Hw Hs Hvs rs data HP. induction HP as [ | v b vs rs bs He HP IH | v out msg vs rs bs Hu HP IH | v b part vs rs bs Hb Hc HP IH ]; intros w Hr Hn.
  - exists []. intros s more HN. cbn [push_each_on app]. change (lenN (@nil val)) with 0. now rewrite N.add_0_r, with_count_id, put_same.
  - inversion Hvs as [ | v' vs' Hv Hvs' ]; subst. specialize (IH Hvs'). rewrite lenN_cons in *.
    assert (E : write_one c (w_writer w) v = (b, Ok tt)) by now apply (write_exact c t d).
    destruct (IH (with_count w (w_num_items w + 1)) Hr) as (plan & E2); [ cbn [with_count w_num_items]; lia | ].
    destruct (out_good (WWrite b (WRet (Ok tt))) b (Ok tt)) as (plan1 & E1); [ cbn [out_of]; now rewrite app_nil_r | ].
    exists (plan1 ++ plan). intros s more HN. cbn [push_each_on]. rewrite (push_shaky c v w _ b (Ok tt)) by (auto; lia). rewrite <- app_assoc, E1, E2 by auto.
    rewrite put_put. f_equal. f_equal. cbn [with_count w_num_items]. transitivity (with_count w (w_num_items w + 1 + lenN vs)); [ reflexivity | f_equal; lia ].
  - inversion Hvs as [ | v' vs' Hv Hvs' ]; subst. specialize (IH Hvs'). rewrite lenN_cons in *.
    assert (E : write_one c (w_writer w) v = (out, Err (EData msg))) by (apply (unstorable_exact c t d (w_writer w) v); eauto).
    destruct (IH (with_count w (w_num_items w + 1)) Hr) as (plan & E2); [ cbn [with_count w_num_items]; lia | ].
    destruct (out_good (WWrite out (WRet (Err (EData msg) : res unit))) out (Err (EData msg))) as (plan1 & E1); [ cbn [out_of]; now rewrite app_nil_r | ].
    exists (plan1 ++ plan). intros s more HN. cbn [push_each_on]. rewrite (push_shaky c v w _ out (Err (EData msg))) by (auto; lia). rewrite <- app_assoc, E1, E2 by auto.
    rewrite put_put. f_equal. f_equal. cbn [with_count w_num_items]. transitivity (with_count w (w_num_items w + 1 + lenN vs)); [ reflexivity | f_equal; lia ].
  - inversion Hvs as [ | v' vs' Hv Hvs' ]; subst. specialize (IH Hvs'). rewrite lenN_cons in *.
    assert (E : exists r, write_one c (w_writer w) v = (b, r)).
    { destruct Hb as [ Hb | (msg & Hb) ]; [ exists (Ok tt); now apply (write_exact c t d) | exists (Err (EData msg)); apply (unstorable_exact c t d (w_writer w) v); eauto ]. }
    destruct E as (r & E).
    destruct (IH (with_count w (w_num_items w + 1)) Hr) as (plan & E2); [ cbn [with_count w_num_items]; lia | ].
    destruct (out_bad (WWrite b (WRet r)) b r part) as (plan1 & E1); [ cbn [out_of]; now rewrite app_nil_r | auto | ].
    exists (plan1 ++ plan). intros s more HN. cbn [push_each_on]. rewrite (push_shaky c v w _ b r) by (auto; lia). rewrite <- app_assoc, E1, E2 by auto.
    rewrite put_put. f_equal. f_equal. cbn [with_count w_num_items]. transitivity (with_count w (w_num_items w + 1 + lenN vs)); [ reflexivity | f_equal; lia ].
Qed.

(** * Old and new header *)
Definition mixed (k : N) (new old : bytes) : bytes := takeN k new ++ dropN k old.
Lemma mixed_app k a a' b b' : lenN a = lenN a' -> mixed k (a ++ b) (a' ++ b') = mixed k a a' ++ mixed (k - lenN a) b b'.
Proof.
  intros H. unfold mixed. rewrite takeN_app_gen, dropN_app_gen, <- H, <- !app_assoc. f_equal. destruct (N.le_gt_cases k (lenN a)) as [ Hk | Hk ].
  - replace (k - lenN a) with 0 by lia. now rewrite takeN_0, dropN_0.
  - rewrite (dropN_all k a') by lia. reflexivity.
Qed.
Lemma mixed_same k a : mixed k a a = a.
Proof. apply takeN_dropN. Qed.
Lemma mixed_middle k L new old T : lenN new = lenN old -> mixed k (L ++ new ++ T) (L ++ old ++ T) = L ++ mixed (k - lenN L) new old ++ T.
Proof. intros H. rewrite !mixed_app by auto. now rewrite !mixed_same. Qed.
Lemma mixed_len k new old : lenN new = lenN old -> lenN (mixed k new old) = lenN old.
Proof. intros H. unfold mixed. rewrite lenN_app, lenN_takeN, lenN_dropN. lia. Qed.
Lemma mixed_0 new old : mixed 0 new old = old.
Proof. unfold mixed. now rewrite takeN_0, dropN_0. Qed.
Lemma mixed_all k new old : lenN new = lenN old -> lenN new <= k -> mixed k new old = new.
Proof. intros H Hk. unfold mixed. rewrite takeN_all, dropN_all by lia. apply app_nil_r. Qed.
Lemma mixed_mixed j k new old : lenN new = lenN old -> j <= lenN new -> takeN j new ++ dropN j (mixed k new old) = mixed (N.max j k) new old.
Proof.
  intros H Hj. unfold mixed. destruct (N.le_gt_cases j k) as [ Hk | Hk ].
  - replace (N.max j k) with k by lia. rewrite dropN_app_gen, lenN_takeN. replace (j - N.min k (lenN new)) with 0 by lia. rewrite dropN_0, app_assoc. f_equal.
    replace j with (N.min j k) at 1 by lia. rewrite <- takeN_takeN. apply takeN_dropN.
  - replace (N.max j k) with j by lia. f_equal. rewrite dropN_app_gen, lenN_takeN. rewrite (dropN_all j (takeN k new)) by (rewrite lenN_takeN; lia). cbn [app].
    rewrite dropN_dropN. f_equal. lia.
Qed.
Lemma cut_take part b : cut_short part b -> part = takeN (lenN part) b /\ lenN part < lenN b.
Proof.
  intros (rest & -> & Hr). rewrite takeN_app by auto. split; [ reflexivity | ]. rewrite lenN_app. destruct rest; [ congruence | rewrite lenN_cons; lia ].
Qed.

(** * One attempt at the end *)
Definition patching (w : npy_writer) (off : N) (new : bytes) : wprog unit := patch_p w off (Ok new) (WFlush (WRet (Ok tt))).
Definition held (D : bytes) (p : N) (L new old R : bytes) (k : N) (s : sink) : Prop := sk_fuel s = None /\ sk_data s = overwrite D p (L ++ mixed k new old ++ R).
Definition in_header (p : N) (L new : bytes) (q : N) : Prop := p + lenN L <= q /\ q <= p + lenN L + lenN new.
Section Attempt.
Context (w : npy_writer) (p off : N) (L new old R D : bytes).
Context (Hseek : w_seekable w = true) (Hstart : w_start_pos w = Some p) (HL : bytes_before_text (w_version_props w) + off = lenN L)
  (Hlen : lenN new = lenN old) (Hne : new <> []).
Notation prog := (patching w off new).
Notation holds := (held D p L new old R).
Notation inside := (in_header p L new).

Lemma prog_eq : prog = WTell (fun e => WSeek (p + lenN L) (WWrite new (WSeek e (WFlush (WRet (Ok tt)))))).
Proof. unfold patching, patch_p. rewrite Hseek, Hstart. cbn [wbind]. rewrite <- HL. now rewrite N.add_assoc. Qed.
Lemma holds_put k s j : holds k s -> sk_pos s = p + lenN L -> j <= lenN new -> holds (N.max j k) (put s (takeN j new) None).
Proof.
  intros (HN & Hd) Hp Hj. split; [ reflexivity | ]. destruct (N.eq_dec j 0) as [ -> | H0 ].
  - rewrite takeN_0, put_nil. cbn [sk_data]. now replace (N.max 0 k) with k by lia.
  - rewrite put_nonempty by (intros E; apply (f_equal lenN) in E; rewrite lenN_takeN, lenN_nil in E; lia).
    rewrite Hd, Hp. rewrite overwrite_prefix by (rewrite ?mixed_len; auto). rewrite (app_assoc (takeN j new)). now rewrite mixed_mixed.
Qed.
Lemma attempt_cases k y : holds k (y_out y) -> exists r y' k', run_shaky prog y = (r, y') /\ k <= k' /\ holds k' (y_out y')
  /\ (r = Ok tt /\ lenN new <= k' /\ sk_pos (y_out y') = sk_pos (y_out y) \/ r = Err ESink /\ (sk_pos (y_out y') = sk_pos (y_out y) \/ inside (sk_pos (y_out y')))).
Proof.
  intros H. pose proof H as (HN & Hd). rewrite prog_eq. cbn [run_shaky]. set (s := y_out y) in *.
  destruct (shaky_call_cases sink_tell (sk_pos s) s y) as [ (pl & E) | (pl & E) ]; [ fold s; unfold sink_tell; now rewrite tick_none | | ]; rewrite E; fold s.
  2:{ exists (Err ESink), (on s pl), k. split; [ reflexivity | ]. split; [ lia | ]. split; [ exact H | ]. right. cbn [on y_out]. auto. }
  set (s1 := {| sk_data := sk_data s; sk_pos := p + lenN L; sk_fuel := None |}).
  destruct (shaky_call_cases (sink_seek (p + lenN L)) tt s1 (on s pl)) as [ (pl1 & E1) | (pl1 & E1) ].
  { cbn [on y_out]. unfold sink_seek. rewrite tick_none by auto. unfold s1. now rewrite HN. }
  2:{ rewrite E1. cbn [on y_out]. exists (Err ESink), (on s pl1), k. split; [ reflexivity | ]. split; [ lia | ]. split; [ exact H | ]. right. cbn [on y_out]. auto. }
  rewrite E1. assert (H1 : holds k s1) by (split; [ reflexivity | exact Hd ]).
  destruct (shaky_write_cases new (on s1 pl1) eq_refl) as [ (pl2 & E2) | (part & pl2 & E2 & Hc) ]; rewrite E2; cbn [on y_out].
  2:{ apply cut_take in Hc as (Ep & Hp). rewrite Ep. exists (Err ESink), (on (put s1 (takeN (lenN part) new) None) pl2), (N.max (lenN part) k). split; [ reflexivity | ]. split; [ lia | ].
      split; [ apply holds_put; auto; lia | ]. right. split; [ reflexivity | ]. right. unfold in_header. cbn [on y_out put sk_pos s1]. rewrite lenN_takeN. lia. }
  set (s2 := put s1 new None). assert (H2 : holds (N.max (lenN new) k) s2).
  { unfold s2. pose proof (holds_put k s1 (lenN new) H1 eq_refl ltac:(lia)) as X. now rewrite takeN_all in X by lia. }
  set (s3 := {| sk_data := sk_data s2; sk_pos := sk_pos s; sk_fuel := None |}). assert (H3 : holds (N.max (lenN new) k) s3) by (split; [ reflexivity | apply H2 ]).
  destruct (shaky_call_cases (sink_seek (sk_pos s)) tt s3 (on s2 pl2)) as [ (pl3 & E3) | (pl3 & E3) ]; [ reflexivity | | ]; rewrite E3; cbn [on y_out].
  2:{ exists (Err ESink), (on s2 pl3), (N.max (lenN new) k). split; [ reflexivity | ]. split; [ lia | ]. split; [ exact H2 | ]. right. split; [ reflexivity | ]. right.
      unfold in_header, s2, s1. cbn [on y_out put sk_pos]. lia. }
  destruct (shaky_call_cases sink_flush tt s3 (on s3 pl3)) as [ (pl4 & E4) | (pl4 & E4) ]; [ reflexivity | | ]; rewrite E4; cbn [on y_out].
  - exists (Ok tt), (on s3 pl4), (N.max (lenN new) k). split; [ reflexivity | ]. split; [ lia | ]. split; [ exact H3 | ]. left. split; [ auto | ]. split; [ lia | reflexivity ].
  - exists (Err ESink), (on s3 pl4), (N.max (lenN new) k). split; [ reflexivity | ]. split; [ lia | ]. split; [ exact H3 | ]. right. split; [ auto | ]. left. reflexivity.
Qed.
(** Stopped after [j] bytes of the new text, or at the very end. *)
Lemma attempt_stops k s j : holds k s -> exists plan s', (forall more, run_shaky prog (on s (plan ++ more)) = (Err ESink, on s' more)) /\ holds (N.max (N.min j (lenN new)) k) s'.
Proof.
  intros H. pose proof H as (HN & Hd). rewrite prog_eq.
  set (s1 := {| sk_data := sk_data s; sk_pos := p + lenN L; sk_fuel := None |}). assert (H1 : holds k s1) by (split; [ reflexivity | exact Hd ]).
  assert (T : forall more, shaky_call sink_tell (on s (None :: more)) = (Ok (sk_pos s), on s more)) by (intros; unfold shaky_call, sink_tell; cbn [on y_plan y_out tl]; now rewrite tick_none).
  assert (K : forall more, shaky_call (sink_seek (p + lenN L)) (on s (None :: more)) = (Ok tt, on s1 more)).
  { intros; unfold shaky_call, sink_seek; cbn [on y_plan y_out tl]; rewrite tick_none by auto. unfold s1. now rewrite HN. }
  destruct (N.lt_ge_cases j (lenN new)) as [ Hj | Hj ].
  - exists [None; None; Some j], (put s1 (takeN j new) None). split; [ | replace (N.min j (lenN new)) with j by lia; apply holds_put; auto; lia ].
    intros more. cbn [run_shaky app]. rewrite T, K. assert (Hc : cut_short (takeN j new) new).
    { exists (dropN j new). split; [ now rewrite takeN_dropN | ]. intros E. apply (f_equal lenN) in E. rewrite lenN_dropN, lenN_nil in E. lia. }
    pose proof (shaky_write_bad new (takeN j new) s1 more eq_refl Hc) as E. rewrite lenN_takeN in E. replace (N.min j (lenN new)) with j in E by lia. now rewrite E.
  - exists [None; None; None; None; Some 0]. set (s2 := put s1 new None). exists {| sk_data := sk_data s2; sk_pos := sk_pos s; sk_fuel := None |}.
    split.
    + intros more. cbn [run_shaky app]. rewrite T, K. unfold shaky_write. destruct new as [ | x l ]; [ congruence | ]. cbn [on y_plan y_out tl]. rewrite sink_write_none by reflexivity. reflexivity.
    + split; [ reflexivity | ]. cbn [sk_data]. replace (N.min j (lenN new)) with (lenN new) by lia. unfold s2. pose proof (holds_put k s1 (lenN new) H1 eq_refl ltac:(lia)) as (_ & X). now rewrite takeN_all in X by lia.
Qed.
(** Stopped at once. *)
Lemma attempt_at_once s more : run_shaky prog (on s (Some 0 :: more)) = (Err ESink, on s more).
Proof. rewrite prog_eq. reflexivity. Qed.
End Attempt.

(** * The end *)
Lemma ended_cases e w p off L new old R D k y : finish_p w = patching w off new ->
  w_seekable w = true -> w_start_pos w = Some p -> bytes_before_text (w_version_props w) + off = lenN L -> lenN new = lenN old ->
  held D p L new old R k (y_out y) ->
  exists r y' k', ended_on (@run_shaky) e w y = (r, y') /\ held D p L new old R k' (y_out y')
  /\ (r = Ok tt /\ (e = Finished -> lenN new <= k') \/ r = Err ESink /\ e = Finished)
  /\ (sk_pos (y_out y') = sk_pos (y_out y) \/ in_header p L new (sk_pos (y_out y'))).
Proof.
  intros Ef Hs Hst HL Hlen H. destruct (attempt_cases w p off L new old R D Hs Hst HL Hlen k y H) as (r1 & y1 & k1 & E1 & Hk1 & H1 & C1).
  assert (G : exists y2 k2, drop_on (@run_shaky) w y1 = (Ok tt, y2) /\ k1 <= k2 /\ held D p L new old R k2 (y_out y2)
    /\ (sk_pos (y_out y2) = sk_pos (y_out y1) \/ in_header p L new (sk_pos (y_out y2)))).
  { destruct (attempt_cases w p off L new old R D Hs Hst HL Hlen k1 y1 H1) as (r2 & y2 & k2 & E2 & Hk2 & H2 & C2). exists y2, k2. unfold drop_on. rewrite Ef, E2.
    destruct C2 as [ (-> & _ & HP) | (-> & HP) ]; split; auto; split; auto; split; auto. }
  destruct e; cbn [ended_on].
  - unfold finish_on. rewrite Ef, E1. destruct G as (y2 & k2 & E2 & Hk2 & H2 & HP2). exists r1, y2, k2. split; [ destruct C1 as [ (-> & _) | (-> & _) ]; now rewrite E2 | ].
    split; [ exact H2 | ]. split; [ destruct C1 as [ (-> & Hl & _) | (-> & _) ]; [ left | right ]; split; auto; intros; lia | ].
    destruct HP2 as [ -> | HP2 ]; [ | auto ]. destruct C1 as [ (_ & _ & ->) | (_ & [ -> | HP ]) ]; auto.
  - exists (Ok tt), y1, k1. split; [ unfold drop_on; rewrite Ef, E1; destruct C1 as [ (-> & _) | (-> & _) ]; reflexivity | ]. split; [ exact H1 | ].
    split; [ left; split; [ auto | discriminate ] | ]. destruct C1 as [ (_ & _ & ->) | (_ & HP) ]; auto.
Qed.
Lemma ended_stops e w p off L new old R D s j : finish_p w = patching w off new ->
  w_seekable w = true -> w_start_pos w = Some p -> bytes_before_text (w_version_props w) + off = lenN L -> lenN new = lenN old -> new <> [] ->
  held D p L new old R 0 s ->
  exists plan s', ended_on (@run_shaky) e w (on s plan) = (match e with Finished => Err ESink | Dropped => Ok tt end, on s' []) /\ held D p L new old R (N.min j (lenN new)) s'.
Proof.
  intros Ef Hs Hst HL Hlen Hne H. destruct (attempt_stops w p off L new old R D Hs Hst HL Hlen Hne 0 s j H) as (plan & s' & E & H').
  replace (N.max (N.min j (lenN new)) 0) with (N.min j (lenN new)) in H' by lia.
  destruct e; cbn [ended_on].
  - exists (plan ++ [Some 0]), s'. split; [ | exact H' ]. unfold finish_on, drop_on. rewrite Ef, E, (attempt_at_once w p off L new Hs Hst HL). reflexivity.
  - exists plan, s'. split; [ | exact H' ]. unfold drop_on. specialize (E []). rewrite app_nil_r in E. rewrite Ef, E. reflexivity.
Qed.

Lemma finish_p_growing d o h w n : growing h -> w_shape_info w = info_of d o h -> w_num_items w = n -> n < 2 ^ 64 ->
  match final_shape h o n with
  | Some shape => finish_p w = patching w (lenN (dict_prefix d o)) (suffix o h (dec (variable_axis h n)))
                  /\ shape = shape_with o h (variable_axis h n) /\ variable_axis h n <= n
  | None => exists r, h = TwoDimensional r /\ finish_p w = WRet (if r =? 0 then Panic else Err (not_divisible n r))
  end.
Proof.
  intros Hg Hi <- Hn. unfold final_shape. destruct h as [ sh | r | ]; [ destruct Hg | | ]; cbn [info_of] in Hi.
  - destruct (N.eqb_spec r 0) as [ -> | Hr ]; cbn [orb].
    + exists 0. split; auto. unfold finish_p. rewrite Hi. reflexivity.
    + destruct (w_num_items w mod r =? 0) eqn:E; cbn [negb].
      * cbn [variable_axis shape_with]. assert (Hle : w_num_items w / r <= w_num_items w) by (apply N.div_le_upper_bound; nia).
        split; [ | split; [ destruct o; reflexivity | exact Hle ] ]. unfold finish_p. rewrite Hi. replace (r =? 0) with false by lia. rewrite E. cbn [negb].
        rewrite suffix_2d by (apply dec_length_u64; lia). reflexivity.
      * exists r. split; auto. unfold finish_p. rewrite Hi. replace (r =? 0) with false by lia. rewrite E. cbn [negb]. reflexivity.
  - cbn [variable_axis shape_with]. split; [ | split; [ reflexivity | lia ] ]. unfold finish_p. rewrite Hi. rewrite (suffix_1d _ o) by (apply dec_length_u64; lia). reflexivity.
Qed.

(** The file with part of the new text. *)
Lemma mixed_file (c : cfg) d o h s n data w s1 L pad props shape : growing h -> hint_ok h -> wf_dtype d -> top_level d -> growing_state d o h s n data w s1 L pad props ->
  n < 2 ^ 64 -> final_shape h o n = Some shape ->
  let new := suffix o h (dec (variable_axis h n)) in let old := suffix o h filler in let T := repeatN 32 pad ++ [10] in
  lenN new = lenN old /\ begun_file d o h data (L ++ old ++ T ++ data) /\ finished_file d o h shape data (L ++ new ++ T ++ data).
Proof.
  intros Hg Hh Hw Ht Hs Hn Ef new old T. pose proof (finish_p_growing d o h w n Hg (gs_info _ _ _ _ _ _ _ _ _ _ _ Hs) (gs_count _ _ _ _ _ _ _ _ _ _ _ Hs) Hn) as HF. rewrite Ef in HF.
  destruct HF as (_ & Esh & Hax). pose proof (gs_headers _ _ _ _ _ _ _ _ _ _ _ Hs) as HH. assert (Hx : lenN (dec (variable_axis h n)) <= 20) by (apply dec_length_u64; lia).
  split; [ unfold new, old; rewrite !suffix_len; auto; apply filler_ok | ]. split.
  - pose proof (HH filler (proj1 filler_ok) (proj2 filler_ok)) as H1. destruct (begun_dict c d o h _ _ Hh (create_growing c d o h Hg)) as (sh & Hsh & Ed). rewrite Ed in H1.
    replace (L ++ old ++ T ++ data) with ((L ++ old ++ T) ++ data) by (rewrite <- !app_assoc; reflexivity). eapply begun_header; eauto.
  - pose proof (HH (dec (variable_axis h n)) Hx (dec_ascii _)) as H1. destruct (final_dict_text d o h n shape (fun _ => Esh) Ef) as (sh & reserve & Hsh & Ed).
    replace (final_dict d o h n) with (dict_prefix d o ++ suffix o h (dec (variable_axis h n))) in Ed by (destruct h; [ destruct Hg | | ]; reflexivity). rewrite Ed in H1.
    replace (L ++ new ++ T ++ data) with ((L ++ new ++ T) ++ data) by (rewrite <- !app_assoc; reflexivity). eapply header_of_file; eauto.
Qed.

(** What [begin] leaves for files of known shape. *)
Lemma known_begun c t d o shape s w s1 n data : hint_ok (NDimensional shape) -> wf_dtype d -> begin_ c t d o (NDimensional shape) false s = (Ok w, s1) -> sk_fuel s1 = None ->
  exists hdr, put s1 data None = put s (hdr ++ data) None /\ hdr <> [] /\ begun_file d o (NDimensional shape) data (hdr ++ data)
  /\ (forall f, begun_file d o (NDimensional shape) data f <-> finished_file d o (NDimensional shape) shape data f)
  /\ finish_p (with_count w n) = if count shape =? n then WFlush (WRet (Ok tt)) else WRet (Err (wrong_count (count shape) n)).
Proof.
  intros Hh Hw Hb HN. pose proof Hb as Hb'. apply begin_ok_inv in Hb' as (Ht & dict & pad & hdr & props & info & tw & Hc & Hho & _ & Hwr & Hs & Ew).
  pose proof (begun_dict c d o _ _ _ Hh Hc) as (sh & Hsh & Ed). cbn [create_dict] in Hc. apply bind_ok in Hc as (x & Hx & Hc). apply Ok_inj, pair_inj in Hc as (_ & Hi).
  assert (Ex : x = count shape).
  { destruct Hh as (H64 & Hno). unfold product in Hx. rewrite product_from_fits in Hx by now apply no_overflow_fits. apply Ok_inj in Hx. lia. }
  exists hdr. split; [ rewrite Hs, put_put; reflexivity | ]. split; [ eapply header_nonempty; eauto | ]. rewrite Ed in Hho. split; [ eapply begun_header; eauto | ]. split.
  - intros f. split.
    + intros (sh' & H1 & H2). exists sh', 0. split; [ inversion H1; subst; now constructor | auto ].
    + intros (sh' & r & H1 & H2). inversion H1; subst. exists sh'. split; [ now constructor | auto ].
  - unfold finish_p. replace (w_shape_info (with_count w n)) with (Known (count shape)) by (rewrite Ew, <- Hi, Ex; reflexivity). change (w_num_items (with_count w n)) with n.
    destruct (count shape =? n); reflexivity.
Qed.

(** Nothing is tried when the count is wrong. *)
Lemma ended_nothing e w r y : finish_p w = WRet r -> ended_on (@run_shaky) e w y = (match e, r with Dropped, Err _ => Ok tt | _, _ => r end, y).
Proof.
  intros E. destruct e; cbn [ended_on]; unfold finish_on, drop_on; rewrite E; cbn [run_shaky].
  - destruct r as [ [] | | ]; reflexivity.
  - destruct r as [ [] | | ]; reflexivity.
Qed.
Lemma ended_flush e w y : finish_p w = WFlush (WRet (Ok tt)) -> sk_fuel (y_out y) = None ->
  exists r plan, ended_on (@run_shaky) e w y = (r, on (y_out y) plan) /\ (r = Ok tt \/ r = Err ESink /\ e = Finished).
Proof.
  intros E HN. assert (F : forall z, sk_fuel (y_out z) = None -> exists r pl, run_shaky (finish_p w) z = (r, on (y_out z) pl) /\ (r = Ok tt \/ r = Err ESink)).
  { intros z Hz. rewrite E. cbn [run_shaky]. destruct (shaky_call_cases sink_flush tt (y_out z) z) as [ (pl & H) | (pl & H) ]; [ unfold sink_flush; now rewrite tick_none | | ]; rewrite H; eauto. }
  assert (G : forall z, sk_fuel (y_out z) = None -> exists pl, drop_on (@run_shaky) w z = (Ok tt, on (y_out z) pl)).
  { intros z Hz. destruct (F z Hz) as (r & pl & H & C). unfold drop_on. rewrite H. exists pl. destruct C as [ -> | -> ]; reflexivity. }
  destruct e; cbn [ended_on].
  - destruct (F y HN) as (r & pl & H & C). destruct (G (on (y_out y) pl) HN) as (pl' & H'). exists r, pl'. unfold finish_on. rewrite H. split; [ destruct C as [ -> | -> ]; now rewrite H' | ]. destruct C; auto.
  - destruct (G y HN) as (pl & H). eauto.
Qed.

(** At the end, or in the header of a file whose header is patched. *)
Definition rests (s : sink) (h : shape_hint) (data file : bytes) (pos : N) : Prop :=
  pos = sk_pos s + lenN file \/ growing h /\ sk_pos s < pos /\ pos + lenN data < sk_pos s + lenN file.
Lemma ends_sound c t d o h s w s1 n data e y : wf_dtype d -> hint_ok h -> n < 2 ^ 64 -> sk_fuel s = None -> sk_fuel s1 = None ->
  begin_ c t d o h (output_kind h) s = (Ok w, s1) -> y_out y = put s1 data None ->
  exists r y' file, ended_on (@run_shaky) e (with_count w n) y = (r, y') /\ shaky_ends d o h n data e r file
  /\ placed (sk_data s) (sk_pos s) file (sk_data (y_out y')) /\ rests s h data file (sk_pos (y_out y')) /\ sk_fuel (y_out y') = None.
Proof.
  intros Hw Hh Hn HN HN1 Hb Hy. assert (Hg : growing h \/ exists shape, h = NDimensional shape) by (destruct h; cbn; eauto). destruct Hg as [ Hg | (shape & ->) ].
  - replace (output_kind h) with true in Hb by (destruct h; [ destruct Hg | | ]; reflexivity).
    destruct (begin_growing c t d o h s w s1 Hg Hb) as (Ht & _ & L & pad & props & Hs1).
    apply (put_growing _ _ _ _ _ _ _ _ _ _ _ n data None) in Hs1.
    assert (Hc : with_count w (w_num_items w + n) = with_count w n).
    { pose proof (gs_count _ _ _ _ _ _ _ _ _ _ _ Hs1) as E. cbn [with_count w_num_items] in E. f_equal. exact E. }
    rewrite Hc, N.add_0_l in Hs1. cbn [app] in Hs1.
    pose proof (finish_p_growing d o h (with_count w n) n Hg (gs_info _ _ _ _ _ _ _ _ _ _ _ Hs1) eq_refl Hn) as HF. destruct (final_shape h o n) as [ shape | ] eqn:Ef.
    + destruct HF as (EF & Esh & Hax). destruct (mixed_file c d o h s n data _ _ L pad props shape Hg Hh Hw Ht Hs1 Hn Ef) as (Hlen & HB & HE).
      set (new := suffix o h (dec (variable_axis h n))) in *. set (old := suffix o h filler) in *. set (R := repeatN 32 pad ++ [10] ++ data).
      assert (H0 : held (sk_data s) (sk_pos s) L new old R 0 (y_out y)).
      { split; [ now rewrite Hy | ]. rewrite Hy, mixed_0, (gs_data _ _ _ _ _ _ _ _ _ _ _ Hs1). reflexivity. }
      assert (HR : R = (repeatN 32 pad ++ [10]) ++ data) by (unfold R; now rewrite <- app_assoc). rewrite <- app_assoc in HB, HE. cbn [app] in HB, HE. fold old in HB. 
      change (10 :: data) with ([10] ++ data) in HB, HE. fold R in HB, HE.
      assert (HL : bytes_before_text (w_version_props (with_count w n)) + lenN (dict_prefix d o) = lenN L).
      { rewrite (gs_props _ _ _ _ _ _ _ _ _ _ _ Hs1). symmetry. apply (gs_len _ _ _ _ _ _ _ _ _ _ _ Hs1). }
      destruct (ended_cases e (with_count w n) (sk_pos s) _ L new old R (sk_data s) 0 y EF (gs_seekable _ _ _ _ _ _ _ _ _ _ _ Hs1) (gs_start _ _ _ _ _ _ _ _ _ _ _ Hs1) HL Hlen H0)
        as (r & y' & k & E & (HN' & Hd) & Hr & HP).
      exists r, y', (L ++ mixed k new old ++ R). split; [ exact E | ]. split.
      { assert (HM : half_patched d o h shape data (L ++ mixed k new old ++ R)).
        { exists (lenN L + k), (L ++ old ++ R), (L ++ new ++ R). split; [ exact HB | ]. split; [ exact HE | ]. split; [ rewrite !lenN_app; lia | ]. fold (mixed (lenN L + k) (L ++ new ++ R) (L ++ old ++ R)).
          rewrite mixed_middle by auto. now replace (lenN L + k - lenN L) with k by lia. }
        destruct Hr as [ (-> & Hk) | (-> & ->) ]; [ destruct e | ].
        - rewrite mixed_all by (auto; apply Hk; auto). eapply se_finished; eauto.
        - eapply se_dropped; eauto.
        - eapply se_failed; eauto. }
      split; [ exact Hd | ]. split; [ | exact HN' ]. assert (Hlf : lenN (L ++ mixed k new old ++ R) = lenN L + lenN new + lenN R) by (rewrite !lenN_app, mixed_len by auto; lia).
      assert (HLp : 0 < lenN L). { rewrite <- HL. unfold bytes_before_text. destruct (vp_u32 _); lia. }
      destruct HP as [ -> | (HP1 & HP2) ]; [ | right; split; [ auto | ]; rewrite Hlf; unfold R; rewrite !lenN_app; change (lenN [10]) with 1; lia ]. left. rewrite Hy, (gs_pos _ _ _ _ _ _ _ _ _ _ _ Hs1). change (L ++ suffix o h filler ++ repeatN 32 pad ++ [10] ++ data) with (L ++ old ++ R). rewrite Hlf, !lenN_app. lia.
    + destruct HF as (r & Er & EF). rewrite (ended_nothing e (with_count w n) _ y EF).
      exists (match e with Dropped => match (if r =? 0 then Panic else Err (not_divisible n r)) with Err _ => Ok tt | x => x end | _ => if r =? 0 then Panic else Err (not_divisible n r) end), y, (L ++ suffix o h filler ++ repeatN 32 pad ++ [10] ++ data).
      split; [ destruct e; [ reflexivity | destruct (r =? 0); reflexivity ] | ].
      pose proof (gs_headers _ _ _ _ _ _ _ _ _ _ _ Hs1 filler (proj1 filler_ok) (proj2 filler_ok)) as HH.
      assert (HB : begun_file d o h data (L ++ suffix o h filler ++ repeatN 32 pad ++ [10] ++ data)).
      { destruct (begun_dict c d o h _ _ Hh (create_growing c d o h Hg)) as (sh & Hsh & Ed). rewrite Ed in HH.
        replace (L ++ suffix o h filler ++ repeatN 32 pad ++ [10] ++ data) with ((L ++ suffix o h filler ++ repeatN 32 pad ++ [10]) ++ data) by (rewrite <- !app_assoc; reflexivity). eapply begun_header; eauto. }
      split.
      { subst h. cbn [final_shape] in Ef. destruct (N.eqb_spec r 0) as [ -> | Hr ].
        - destruct e; now constructor.
        - cbn [orb] in Ef. destruct (N.eqb_spec (n mod r) 0) as [ | Hm ]; [ discriminate | ].
          assert (CC : count_complaint (TwoDimensional r) n (dec n ++ lit " item(s) is not divisible by " ++ dec r ++ lit "!")) by (constructor; auto using dec_shortest).
          destruct e; [ now constructor | eapply se_silently; eauto ]. }
      split; [ rewrite Hy; exact (gs_data _ _ _ _ _ _ _ _ _ _ _ Hs1) | ]. rewrite Hy, (gs_pos _ _ _ _ _ _ _ _ _ _ _ Hs1). split; [ | reflexivity ]. now left.
  - change (output_kind (NDimensional shape)) with false in Hb. destruct (known_begun c t d o shape s w s1 n data Hh Hw Hb HN1) as (hdr & Ep & Hne & HB & HBE & EF).
    assert (Hpos : 0 < lenN hdr) by (destruct hdr; [ congruence | rewrite lenN_cons; lia ]).
    assert (HPL : placed (sk_data s) (sk_pos s) (hdr ++ data) (sk_data (put s1 data None)) /\ rests s (NDimensional shape) data (hdr ++ data) (sk_pos (put s1 data None))).
    { rewrite Ep. split; [ apply placed_put; intros E; apply app_eq_nil in E as (E & _); congruence | ]. now left. }
    destruct (N.eqb_spec (count shape) n) as [ En | En ].
    + destruct (ended_flush e (with_count w n) y EF) as (r & pl & E & Hr); [ now rewrite Hy | ]. exists r, (on (y_out y) pl), (hdr ++ data). split; [ exact E | ].
      assert (Ef : final_shape (NDimensional shape) o n = Some shape) by (cbn [final_shape]; now replace (count shape =? n) with true by lia).
      split; [ | cbn [on y_out]; rewrite Hy; destruct HPL; split; auto ].
      destruct Hr as [ -> | (-> & ->) ]; [ eapply se_finished; [ exact Ef | now apply HBE ] | ]. eapply se_failed; [ exact Ef | ].
      exists 0, (hdr ++ data), (hdr ++ data). split; [ auto | ]. split; [ now apply HBE | ]. split; [ reflexivity | ]. now rewrite takeN_0, dropN_0.
    + rewrite (ended_nothing e (with_count w n) _ y EF). exists (match e with Dropped => Ok tt | _ => Err (wrong_count (count shape) n) end), y, (hdr ++ data). split; [ destruct e; reflexivity | ].
      split; [ | rewrite Hy; destruct HPL; split; auto ].
      assert (CC : count_complaint (NDimensional shape) n (lit "shape has " ++ dec (count shape) ++ lit " item(s), but " ++ dec n ++ lit " item(s) were written!")) by (constructor; auto using dec_shortest).
      destruct e; [ now constructor | eapply se_silently; eauto ].
Qed.

Lemma ends_complete c t d o h s w s1 n data e r file : wf_dtype d -> hint_ok h -> n < 2 ^ 64 -> sk_fuel s = None -> sk_fuel s1 = None ->
  begin_ c t d o h (output_kind h) s = (Ok w, s1) -> shaky_ends d o h n data e r file ->
  exists plan s', ended_on (@run_shaky) e (with_count w n) (on (put s1 data None) plan) = (r, on s' []) /\ placed (sk_data s) (sk_pos s) file (sk_data s').
Proof.
  intros Hw Hh Hn HN HN1 Hb H.
  assert (Calm : forall r f, ends e h o n r -> left_behind d o h n data f ->
    exists plan s', ended_on (@run_shaky) e (with_count w n) (on (put s1 data None) plan) = (r, on s' []) /\ placed (sk_data s) (sk_pos s) f (sk_data s')).
  { intros r0 f0 H1 H2. destruct (end_exact c t d o h s w s1 n data e Hw Hh Hn HN Hb) as (r' & s' & f' & E & H1' & H2' & H3 & _).
    rewrite (ends_unique _ _ _ _ _ _ H1 H1'), (left_unique _ _ _ _ _ _ _ Hw H2 H2'). exists [], s'. rewrite calm_ended, E. auto. }
  assert (Trouble : forall shape, final_shape h o n = Some shape -> half_patched d o h shape data file ->
    exists plan s', ended_on (@run_shaky) e (with_count w n) (on (put s1 data None) plan) = (match e with Finished => Err ESink | Dropped => Ok tt end, on s' []) /\ placed (sk_data s) (sk_pos s) file (sk_data s')).
  { intros shape Ef (k & fold & fnew & HB' & HE' & _ & ->). assert (Hg : growing h \/ exists shape, h = NDimensional shape) by (destruct h; cbn; eauto). destruct Hg as [ Hg | (sh & ->) ].
    - replace (output_kind h) with true in Hb by (destruct h; [ destruct Hg | | ]; reflexivity).
      destruct (begin_growing c t d o h s w s1 Hg Hb) as (Ht & _ & L & pad & props & Hs1).
      apply (put_growing _ _ _ _ _ _ _ _ _ _ _ n data None) in Hs1.
      assert (Hc : with_count w (w_num_items w + n) = with_count w n).
      { pose proof (gs_count _ _ _ _ _ _ _ _ _ _ _ Hs1) as E. cbn [with_count w_num_items] in E. f_equal. exact E. }
      rewrite Hc, N.add_0_l in Hs1. cbn [app] in Hs1.
      pose proof (finish_p_growing d o h (with_count w n) n Hg (gs_info _ _ _ _ _ _ _ _ _ _ _ Hs1) eq_refl Hn) as HF. rewrite Ef in HF.
      destruct HF as (EF & Esh & Hax). destruct (mixed_file c d o h s n data _ _ L pad props shape Hg Hh Hw Ht Hs1 Hn Ef) as (Hlen & HB & HE).
      set (new := suffix o h (dec (variable_axis h n))) in *. set (old := suffix o h filler) in *. set (R := repeatN 32 pad ++ [10] ++ data).
      assert (HR : R = (repeatN 32 pad ++ [10]) ++ data) by (unfold R; now rewrite <- app_assoc). rewrite <- HR in HB, HE.
      rewrite (begun_unique _ _ _ _ _ _ Hw HB' HB), (finished_unique _ _ _ _ _ _ _ Hw HE' HE). change (takeN k (L ++ new ++ R) ++ dropN k (L ++ old ++ R)) with (mixed k (L ++ new ++ R) (L ++ old ++ R)).
      rewrite mixed_middle by auto.
      assert (H0 : held (sk_data s) (sk_pos s) L new old R 0 (put s1 data None)).
      { split; [ reflexivity | ]. rewrite mixed_0, (gs_data _ _ _ _ _ _ _ _ _ _ _ Hs1). reflexivity. }
      assert (HL : bytes_before_text (w_version_props (with_count w n)) + lenN (dict_prefix d o) = lenN L).
      { rewrite (gs_props _ _ _ _ _ _ _ _ _ _ _ Hs1). symmetry. apply (gs_len _ _ _ _ _ _ _ _ _ _ _ Hs1). }
      destruct (ended_stops e (with_count w n) (sk_pos s) _ L new old R (sk_data s) _ (k - lenN L) EF (gs_seekable _ _ _ _ _ _ _ _ _ _ _ Hs1) (gs_start _ _ _ _ _ _ _ _ _ _ _ Hs1) HL Hlen (suffix_nonempty _ _ _ Hg) H0)
        as (plan & s' & E & (_ & Hd)).
      exists plan, s'. split; [ exact E | ]. unfold placed. change (sk_data s' = overwrite (sk_data s) (sk_pos s) (L ++ mixed (k - lenN L) new old ++ R)).
      rewrite Hd. destruct (N.le_gt_cases (k - lenN L) (lenN new)); [ now replace (N.min (k - lenN L) (lenN new)) with (k - lenN L) by lia | ].
      rewrite !mixed_all by (auto; lia). reflexivity.
    - assert (sh = shape) by (cbn [final_shape] in Ef; destruct (count sh =? n); congruence). subst sh.
      destruct (known_begun c t d o shape s w s1 n data Hh Hw Hb HN1) as (hdr & Ep & Hne & HB & HBE & EF).
      assert (En : count shape = n) by (cbn [final_shape] in Ef; destruct (N.eqb_spec (count shape) n); congruence). replace (count shape =? n) with true in EF by lia.
      rewrite (begun_unique _ _ _ _ _ _ Hw HB' HB), (begun_unique _ _ _ _ _ _ Hw (proj2 (HBE _) HE') HB), takeN_dropN.
      assert (HP : placed (sk_data s) (sk_pos s) (hdr ++ data) (sk_data (put s1 data None))).
      { rewrite Ep. apply placed_put. intros E. apply app_eq_nil in E as (E & _). congruence. }
      destruct e; [ exists [Some 0; Some 0] | exists [Some 0] ]; exists (put s1 data None); cbn [ended_on]; unfold finish_on, drop_on; rewrite EF; auto. }
  destruct H as [ e shape file Ef HE | shape file Ef HM | shape file Ef HM | msg file HC HB | msg file HC HB | e file -> HB ].
  - apply Calm; [ econstructor; eauto | ]. unfold left_behind. now rewrite Ef.
  - now apply (Trouble shape).
  - now apply (Trouble shape).
  - apply Calm; [ econstructor; eauto | ]. unfold left_behind. destruct (final_shape h o n) eqn:Ef; [ exfalso; eapply complaint_no_shape; eauto | auto ].
  - apply Calm; [ eapply ends_silently; eauto | ]. unfold left_behind. destruct (final_shape h o n) eqn:Ef; [ exfalso; eapply complaint_no_shape; eauto | auto ].
  - apply Calm; [ constructor | ]. exact HB.
Qed.

(** * Whole sessions *)
Lemma overwrite_inj D p a b : lenN a = lenN b -> overwrite D p a = overwrite D p b -> a = b.
Proof.
  intros Hl H. destruct (overwrite_split D p a) as (Ea & _), (overwrite_split D p b) as (Eb & _). rewrite Ea, Eb in H. apply app_inv_head in H. rewrite Hl in H. now apply app_inv_tail in H.
Qed.
Lemma nonempty_len (l : bytes) : l <> [] <-> 0 < lenN l.
Proof. destruct l; [ change (lenN (@nil N)) with 0; split; [ congruence | lia ] | rewrite lenN_cons; split; [ lia | congruence ] ]. Qed.
Lemma begun_bytes c t d o h s : wf_dtype d -> top_level d -> hint_ok h -> short_header d h -> sk_fuel s = None ->
  exists b r, begun_with c t d o h (output_kind h) s b r /\ begin_ c t d o h (output_kind h) s = (r, put s b None) /\ begun_file d o h [] b /\ b <> []
  /\ ((exists w, r = Ok w /\ writer c t d = DOk (w_writer w) /\ w_num_items w = 0 /\ accepts (c_usize_max c) Writing t d)
      \/ exists msg, r = Err (EData msg) /\ write_complaint (c_usize_max c) t d msg).
Proof.
  intros Hw Ht Hh Hs HN. destruct (begin_rest_out c t d o h (output_kind h) (if output_kind h then Some (sk_pos s) else None)) as (b & r & H). exists b, r. split; [ exact H | ].
  assert (E : begin_ c t d o h (output_kind h) s = (r, put s b None)) by now apply begun_with_begin. split; [ exact E | ].
  assert (G : forall f, f <> [] -> sk_data (put s b None) = overwrite (sk_data s) (sk_pos s) f -> sk_pos (put s b None) = sk_pos s + lenN f -> b = f).
  { intros f Hf Hd Hp. cbn [put sk_pos] in Hp. assert (Hl : lenN b = lenN f) by lia. rewrite put_nonempty in Hd by (apply nonempty_len in Hf; apply nonempty_len; lia). eapply overwrite_inj; eauto. }
  destruct (accepted_or_complaint c t d Hw) as [ A | (msg & M) ].
  - pose proof A as A'. apply writer_accepts in A' as (tw & Htw). destruct (create_short c d o h Hh Hs) as (dict & info & Hc & Hf).
    destruct (begin_ok_intro c t d o h (output_kind h) s dict info tw Ht Hc Hf Htw HN) as (w & hdr & Hb). rewrite E in Hb. apply pair_inj in Hb as (-> & Hb).
    pose proof E as E'. apply begin_ok_inv in E' as (_ & dict' & pad & hdr' & props & info' & tw' & Hc' & Hho & _ & Htw' & Es & Ew).
    assert (Hne : hdr' <> []) by (eapply header_nonempty; eauto).
    assert (Eb : b = hdr').
    { apply G; [ auto | rewrite Es; apply put_nonempty; auto | rewrite Es; reflexivity ]. }
    subst b. split; [ | split; [ auto | left ] ].
    + destruct (begun_dict c d o h _ _ Hh Hc') as (sh & Hsh & Ed). rewrite Ed in Hho. rewrite <- (app_nil_r hdr'). eapply begun_header; eauto.
    + exists w. split; [ auto | ]. split; [ rewrite Ew; exact Htw' | ]. split; [ now rewrite Ew | auto ].
  - destruct (refused_outcome c t d o h s msg Hw Ht Hh Hs HN M) as (s' & file & Hb & H1 & H2 & H3 & _). rewrite E in Hb. apply pair_inj in Hb as (-> & <-).
    assert (Hne : file <> []). { destruct H1 as (sh & _ & F). intros ->. inversion F. }
    assert (Eb : b = file) by (apply G; auto). subst b. split; [ auto | ]. split; [ auto | ]. right. eauto.
Qed.

Definition where_it_rests (s : sink) (t : rty) (d : dtype) (h : shape_hint) (vs : list val) (r : res (list (res unit) * res unit)) (file : bytes) (pos : N) : Prop :=
  match r with Ok (rs, _) => exists data, shaky_pushes t d vs rs data /\ rests s h data file pos | _ => pos = sk_pos s + lenN file end.
Lemma shaky_sound c t d o h vs e s plan : wf_dtype d -> strings_fit (c_usize_max c) d -> top_level d -> Forall (has_type t) vs -> lenN vs < 2 ^ 64 ->
  hint_ok h -> short_header d h -> sk_fuel s = None -> sk_pos s <= lenN (sk_data s) ->
  exists r y' file, session_on (@run_shaky) c t d o h (output_kind h) vs e {| y_out := s; y_plan := plan |} = (r, y')
  /\ shaky_outcome (c_usize_max c) t d o h vs e r file /\ placed (sk_data s) (sk_pos s) file (sk_data (y_out y')) /\ where_it_rests s t d h vs r file (sk_pos (y_out y')).
Proof.
  intros Hw Hsf Ht Hvs Hn Hh Hs HN Hp. change {| y_out := s; y_plan := plan |} with (on s plan).
  destruct (begun_bytes c t d o h s Hw Ht Hh Hs HN) as (b & r & H & Eb & HB & Hne & C). unfold session_on.
  destruct (begin_cases c t d o h (output_kind h) (on s plan) b r HN H) as [ (pl & E) | (part & pl & E & Hc) ]; rewrite E; cbn [on y_out] in *.
  - destruct C as [ (w & -> & Hwr & H0 & A) | (msg & -> & M) ].
    + destruct (pushes_sound c t d vs Hw Hsf Hvs w (on (put s b None) pl) Hwr) as (rs & data & pl2 & E2 & HP); [ rewrite H0; lia | reflexivity | ]. rewrite E2, H0, N.add_0_l. cbn [on y_out].
      destruct (ends_sound c t d o h s w (put s b None) (lenN vs) data e (on (put (put s b None) data None) pl2) Hw Hh Hn HN eq_refl Eb eq_refl) as (r & y' & file & E3 & H1 & H2 & H3 & _).
      fold (on (put (put s b None) data None) pl2). rewrite E3. exists (Ok (rs, r)), y', file. split; [ reflexivity | ]. split; [ econstructor; eauto | ]. split; [ auto | ]. exists data. auto.
    + exists (Err (EData msg)), (on (put s b None) pl), b. split; [ reflexivity | ]. split; [ now constructor | ]. split; [ now apply placed_put | reflexivity ].
  - exists (Err ESink), (on (put s part None) pl), part. split; [ reflexivity | ].
    assert (Hc' : cut_short part b) by (destruct Hc as [ | -> ]; [ auto | exists b; auto ]). split; [ econstructor; eauto | ].
    split; [ | reflexivity ]. cbn [on y_out]. destruct part as [ | x part ]; [ | now apply placed_put ]. rewrite put_nil. cbn [sk_data]. symmetry. now apply overwrite_empty.
Qed.
Lemma shaky_complete c t d o h vs e s r file : wf_dtype d -> strings_fit (c_usize_max c) d -> top_level d -> Forall (has_type t) vs -> lenN vs < 2 ^ 64 ->
  hint_ok h -> short_header d h -> sk_fuel s = None -> sk_pos s <= lenN (sk_data s) -> shaky_outcome (c_usize_max c) t d o h vs e r file ->
  exists plan y', session_on (@run_shaky) c t d o h (output_kind h) vs e {| y_out := s; y_plan := plan |} = (r, y') /\ placed (sk_data s) (sk_pos s) file (sk_data (y_out y')).
Proof.
  intros Hw Hsf Ht Hvs Hn Hh Hs HN Hp HO.
  destruct (begun_bytes c t d o h s Hw Ht Hh Hs HN) as (b & r0 & H & Eb & HB & Hne & C). unfold session_on.
  destruct HO as [ whole file HW Hc | msg file HM HF | rs r data file A HP HE ].
  - rewrite (begun_unique _ _ _ _ _ _ Hw HW HB) in Hc. destruct (begin_bad c t d o h (output_kind h) s b r0 file HN H Hc) as (plan & E). exists plan, (on (put s file None) []).
    fold (on s plan). rewrite E. split; [ reflexivity | ]. cbn [on y_out]. destruct file as [ | x file ]; [ | now apply placed_put ]. rewrite put_nil. cbn [sk_data]. symmetry. now apply overwrite_empty.
  - rewrite (begun_unique _ _ _ _ _ _ Hw HF HB). destruct (begin_good c t d o h (output_kind h) s b r0 HN H) as (plan & E). specialize (E []). rewrite app_nil_r in E. exists plan, (on (put s b None) []).
    fold (on s plan). rewrite E. destruct C as [ (w & -> & _ & _ & A) | (msg' & -> & M) ].
    + exfalso. destruct HM as (e' & He' & _). apply writer_accepts in A as (tw & A). apply writer_rejects in He'. congruence.
    + rewrite (write_complaint_unique _ _ _ _ _ Hw HM M). split; [ reflexivity | now apply placed_put ].
  - destruct C as [ (w & -> & Hwr & H0 & _) | (msg' & -> & M) ].
    2:{ exfalso. destruct M as (e' & He' & _). apply writer_accepts in A as (tw & A). apply writer_rejects in He'. congruence. }
    destruct (begin_good c t d o h (output_kind h) s b (Ok w) HN H) as (p1 & E1).
    destruct (pushes_complete c t d vs Hw Hsf Hvs rs data HP w Hwr) as (p2 & E2); [ rewrite H0; lia | ].
    destruct (ends_complete c t d o h s w (put s b None) (lenN vs) data e r file Hw Hh Hn HN eq_refl Eb HE) as (p3 & s' & E3 & HPl).
    exists (p1 ++ p2 ++ p3), (on s' []). fold (on s (p1 ++ p2 ++ p3)). rewrite E1, E2 by reflexivity. rewrite H0, N.add_0_l, E3. split; [ reflexivity | exact HPl ].
Qed.

(** * Consequences *)
Lemma shaky_calm c t d o h k vs e s plan : Forall (eq None) plan -> exists plan',
  session_on (@run_shaky) c t d o h k vs e {| y_out := s; y_plan := plan |} = (fst (session c t d o h k vs e s), {| y_out := snd (session c t d o h k vs e s); y_plan := plan' |}).
Proof.
  intros Hp.
  assert (W : forall bs s plan, Forall (eq None) plan -> exists plan', shaky_write bs (on s plan) = (fst (sink_write bs s), on (snd (sink_write bs s)) plan') /\ Forall (eq None) plan').
  { intros bs s0 pl H. unfold shaky_write. cbn [on y_plan y_out]. destruct bs as [ | x bs ]; [ exists pl; rewrite write_nil; auto | ].
    destruct pl as [ | [ j | ] pl ]; inversion H; subst; try discriminate; cbn [tl]; destruct (sink_write (x :: bs) s0); eexists; split; try reflexivity; auto. }
  assert (C : forall A (f : sink -> res A * sink) s plan, Forall (eq None) plan -> exists plan', shaky_call f (on s plan) = (fst (f s), on (snd (f s)) plan') /\ Forall (eq None) plan').
  { intros A f s0 pl H. unfold shaky_call. cbn [on y_plan y_out]. destruct pl as [ | [ j | ] pl ]; inversion H; subst; try discriminate; cbn [tl]; destruct (f s0); eexists; split; try reflexivity; auto. }
  assert (R : forall A (p : wprog A) s plan, Forall (eq None) plan -> exists plan', run_shaky p (on s plan) = (fst (run_sink p s), on (snd (run_sink p s)) plan') /\ Forall (eq None) plan').
  { intros A. induction p as [ r | bs q IH | q IH | n q IH | q IH ]; intros s0 pl H; cbn [run_shaky run_sink].
    - exists pl. auto.
    - destruct (W bs s0 pl H) as (pl' & -> & H'). destruct (sink_write bs s0) as ([ | | ], s1); cbn [fst snd]; eauto.
    - destruct (C _ sink_tell s0 pl H) as (pl' & -> & H'). destruct (sink_tell s0) as ([ | | ], s1); cbn [fst snd]; eauto.
    - destruct (C _ (sink_seek n) s0 pl H) as (pl' & -> & H'). destruct (sink_seek n s0) as ([ | | ], s1); cbn [fst snd]; eauto.
    - destruct (C _ sink_flush s0 pl H) as (pl' & -> & H'). destruct (sink_flush s0) as ([ | | ], s1); cbn [fst snd]; eauto. }
  assert (P : forall vs w s plan, Forall (eq None) plan -> exists plan', push_each_on (@run_shaky) c vs w (on s plan)
    = (let '(rs, w', s') := push_each c vs w s in (rs, w', on s' plan')) /\ Forall (eq None) plan').
  { induction vs0 as [ | v vs0 IH ]; intros w s0 pl H; cbn [push_each_on push_each]; [ eauto | ]. rewrite <- push_same. unfold push_on. destruct (u64_add c (w_num_items w) 1) as [ m | er | ].
    - destruct (write_one c (w_writer w) v) as (bs, r). destruct (R _ (WWrite bs (WRet r)) s0 pl H) as (pl1 & -> & H1). destruct (run_sink (WWrite bs (WRet r)) s0) as (r1, s1). cbn [fst snd].
      match goal with |- context [push_each_on _ c vs0 ?w' _] => destruct (IH w' s1 pl1 H1) as (pl2 & -> & H2) end. exists pl2. destruct (push_each c vs0 _ s1) as ((rs, w'), s'). auto.
    - destruct (IH w s0 pl H) as (pl2 & -> & H2). exists pl2. destruct (push_each c vs0 w s0) as ((rs, w'), s'). auto.
    - destruct (IH w s0 pl H) as (pl2 & -> & H2). exists pl2. destruct (push_each c vs0 w s0) as ((rs, w'), s'). auto. }
  assert (D : forall w s plan, Forall (eq None) plan -> exists plan', drop_on (@run_shaky) w (on s plan) = (fst (drop_writer w s), on (snd (drop_writer w s)) plan') /\ Forall (eq None) plan').
  { intros w s0 pl H. rewrite <- drop_same. unfold drop_on. destruct (R _ (finish_p w) s0 pl H) as (pl1 & -> & H1). destruct (run_sink (finish_p w) s0) as ([ | | ], s1); cbn [fst snd]; eauto. }
  fold (on s plan). rewrite <- session_same. unfold session_on. destruct (R _ (begin_p c t d o h k) s plan Hp) as (p1 & -> & H1). destruct (run_sink (begin_p c t d o h k) s) as ([ w | | ], s1); cbn [fst snd]; [ | eexists; reflexivity | eexists; reflexivity ].
  rewrite push_each_same. destruct (P vs w s1 p1 H1) as (p2 & -> & H2). destruct (push_each c vs w s1) as ((rs, w'), s2). destruct e; cbn [ended_on].
  - rewrite finish_all_same. unfold finish_on, finish. destruct (R _ (finish_p w') s2 p2 H2) as (p3 & -> & H3). rewrite finish_same. destruct (finish_ w' s2) as ([ | | ], s3); cbn [fst snd];
    destruct (D w' s3 p3 H3) as (p4 & -> & H4); destruct (drop_writer w' s3) as ([ | | ], s4); cbn [fst snd]; eexists; reflexivity.
  - rewrite drop_same. destruct (D w' s2 p2 H2) as (p3 & -> & H3). destruct (drop_writer w' s2); cbn [fst snd]; eexists; reflexivity.
Qed.

Lemma all_good t d vs rs data : shaky_pushes t d vs rs data -> Forall (eq (Ok tt)) rs -> encodings t d vs data.
Proof.
  induction 1 as [ | v b vs rs bs He HP IH | v out msg vs rs bs Hu HP IH | v b part vs rs bs Hb Hc HP IH ]; intros HF.
  - apply encodings_nil.
  - inversion HF; subst. now apply encodings_cons; auto.
  - inversion HF. discriminate.
  - inversion HF. discriminate.
Qed.
Lemma shaky_success c t d o h vs s plan rs y' : wf_dtype d -> strings_fit (c_usize_max c) d -> top_level d -> Forall (has_type t) vs -> lenN vs < 2 ^ 64 ->
  hint_ok h -> short_header d h -> sk_fuel s = None -> sk_pos s <= lenN (sk_data s) ->
  session_on (@run_shaky) c t d o h (output_kind h) vs Finished {| y_out := s; y_plan := plan |} = (Ok (rs, Ok tt), y') -> Forall (eq (Ok tt)) rs ->
  exists shape payload file, final_shape h o (lenN vs) = Some shape /\ encodings t d vs payload /\ finished_file d o h shape payload file
  /\ placed (sk_data s) (sk_pos s) file (sk_data (y_out y')).
Proof.
  intros Hw Hsf Ht Hvs Hn Hh Hs HN Hp H HF. destruct (shaky_sound c t d o h vs Finished s plan Hw Hsf Ht Hvs Hn Hh Hs HN Hp) as (r & y & file & E & HO & HP & _).
  rewrite H in E. apply pair_inj in E as (<- & <-). inversion HO as [ | | rs' r' data file' A HPs HE ]; subst. inversion HE as [ e shape f Ef Hf | | | | | ]; subst.
  exists shape, data, file. split; [ auto | ]. split; [ eapply all_good; eauto | auto ].
Qed.

Lemma stopped_len m t d vs rs data : accepts m Writing t d -> Forall (has_type t) vs -> shaky_pushes t d vs rs data ->
  bytes_ok data /\ lenN data <= lenN vs * size d /\ (In (Err ESink) rs -> lenN data < lenN vs * size d).
Proof.
  intros Ha Hvs HP. revert Hvs. induction HP as [ | v b vs rs bs He HP IH | v out msg vs rs bs Hu HP IH | v b part vs rs bs Hb Hc HP IH ]; intros Hvs.
  - split; [ constructor | ]. split; [ apply N.le_0_l | intros [] ].
  - inversion Hvs; subst. destruct IH as (B & L & I); auto. destruct (encode_len t _ _ _ _ Ha H1 He) as (L' & B'). rewrite lenN_app, lenN_cons. split; [ now apply Forall_app | ]. split; [ lia | ].
    intros [ E | Hin ]; [ discriminate | ]. specialize (I Hin). lia.
  - inversion Hvs; subst. destruct IH as (B & L & I); auto. destruct (unstorable_len _ _ _ _ _ _ Hu Ha H1) as (L' & B'). rewrite lenN_app, lenN_cons. split; [ now apply Forall_app | ]. split; [ lia | ].
    intros [ E | Hin ]; [ discriminate | ]. specialize (I Hin). lia.
  - inversion Hvs; subst. destruct IH as (B & L & I); auto. apply cut_take in Hc as (Ep & Hl).
    assert (Hlb : lenN b <= size d /\ bytes_ok b).
    { destruct Hb as [ Hb | (msg & Hb) ]; [ destruct (encode_len t _ _ _ _ Ha H1 Hb); split; auto; lia | now apply (unstorable_len _ _ _ _ _ _ Hb Ha H1) ]. }
    destruct Hlb as (Hlb & Bb). rewrite lenN_app, lenN_cons. split; [ apply Forall_app; split; auto; rewrite Ep; now apply Forall_takeN | ]. split; [ lia | ]. intros _. lia.
Qed.
Lemma shaky_short c c' t t' d o h vs plan rs y' f src' items : wf_dtype d -> strings_fit (c_usize_max c) d -> strings_fit (c_usize_max c') d -> top_level d -> Forall (has_type t) vs -> lenN vs < 2 ^ 64 ->
  hint_ok h -> short_header d h -> (exists n, num_bytes c' d = Some n) ->
  session_on (@run_shaky) c t d o h (output_kind h) vs Finished {| y_out := empty_sink; y_plan := plan |} = (Ok (rs, Ok tt), y') -> In (Err ESink) rs ->
  npy_new c' {| cur_data := sk_data (y_out y'); cur_pos := 0 |} = (Ok f, src') -> fst (npy_into_vec c' t' f) <> Ok items.
Proof.
  intros Hw Hsf Hsf' Ht Hvs Hn Hh Hs Hnb H HF. destruct (shaky_sound c t d o h vs Finished empty_sink plan Hw Hsf Ht Hvs Hn Hh Hs eq_refl (N.le_refl _)) as (r & y & file & E & HO & HP & _).
  rewrite H in E. apply pair_inj in E as (<- & <-). inversion HO as [ | | rs' r' data file' A HPs HE ]; subst. inversion HE as [ e shape f' Ef Hf | | | | | ]; subst.
  destruct (stopped_len _ _ _ _ _ _ A Hvs HPs) as (B & _ & Hlt). specialize (Hlt HF). destruct (final_ok h o (lenN vs) shape Hh Hn Ef) as (F1 & F2 & F3).
  assert (Efile : sk_data (y_out y') = file).
  { unfold placed in HP. cbn [empty_sink sk_data sk_pos] in HP. rewrite HP. change (lenN (@nil N)) with 0. rewrite dropN_all by (change (lenN (@nil N)) with 0; lia). apply app_nil_r. }
  rewrite Efile. eapply short_file; eauto using finished_opens, finished_bytes. rewrite F3. lia.
Qed.

(** * Not mistaken *)
Lemma begun_rejected c d o h data file : growing h -> hint_ok h -> wf_dtype d -> top_level d -> begun_file d o h data file ->
  forall rest, exists e r, run (read_and_interpret c) (file ++ rest) = (Err e, r).
Proof.
  intros Hg Hh Hw Ht (sh & Hsh & Hl) rest. destruct (laid_out_header _ _ _ _ _ _ Hw Hl) as (hdr & props & pad & Hho & ->).
  destruct (begun_dict c d o h _ _ Hh (create_growing c d o h Hg)) as (sh' & Hsh' & Ed). rewrite (begun_text_unique _ _ _ _ Hsh Hsh') in Hho. rewrite <- Ed in Hho.
  rewrite <- app_assoc. eapply filler_rejected; eauto.
Qed.
Lemma half_patched_safe c c' t d o h shape vs data file D : growing h -> hint_ok h -> wf_dtype d -> top_level d -> short_header d h -> accepts (c_usize_max c) Writing t d -> lenN vs < 2 ^ 64 ->
  (exists n, num_bytes c' d = Some n) -> roomy o h (variable_axis h (lenN vs)) -> final_shape h o (lenN vs) = Some shape -> encodings t d vs data -> half_patched d o h shape data file ->
  whole_or_error c' t d o h vs (D ++ file) (lenN D).
Proof.
  intros Hg Hh Hw Ht Hs A Hn Hnb Hr Ef Henc (k & fold & fnew & HB' & HE' & _ & ->). apply writer_accepts in A as (tw & Htw). destruct (create_short c d o h Hh Hs) as (dict & info & Hc & Hf).
  destruct (begin_ok_intro c t d o h true {| sk_data := []; sk_pos := 0; sk_fuel := None |} dict info tw Ht Hc Hf Htw eq_refl) as (w & hdr & Hb).
  destruct (begin_growing c t d o h _ w _ Hg Hb) as (_ & _ & L & pad & props & Hs1).
  apply (put_growing _ _ _ _ _ _ _ _ _ _ _ (lenN vs) data None) in Hs1. rewrite N.add_0_l in Hs1. cbn [app] in Hs1.
  destruct (mixed_file c d o h _ (lenN vs) data _ _ L pad props shape Hg Hh Hw Ht Hs1 Hn Ef) as (Hlen & HB & HE).
  rewrite (begun_unique _ _ _ _ _ _ Hw HB' HB), (finished_unique _ _ _ _ _ _ _ Hw HE' HE). clear HB' HE' fold fnew.
  set (ax := variable_axis h (lenN vs)) in *. set (new := suffix o h (dec ax)) in *. set (old := suffix o h filler) in *. set (T := repeatN 32 pad ++ [10]) in *.
  change (takeN k (L ++ new ++ T ++ data) ++ dropN k (L ++ old ++ T ++ data)) with (mixed k (L ++ new ++ T ++ data) (L ++ old ++ T ++ data)). rewrite mixed_middle by auto.
  pose proof (finish_p_growing d o h _ (lenN vs) Hg (gs_info _ _ _ _ _ _ _ _ _ _ _ Hs1) (gs_count _ _ _ _ _ _ _ _ _ _ _ Hs1) Hn) as HF. rewrite Ef in HF. destruct HF as (_ & Hsh & Hax).
  destruct (shape_with_ok h o (lenN vs) shape Hg Hh Hn Ef Hsh) as (Hs64 & Hno & Hcnt). fold ax in Hsh.
  assert (Hlax : lenN (dec ax) <= 20) by (apply dec_length_u64; unfold ax; lia).
  assert (Hj : exists j, j <= lenN new /\ mixed (k - lenN L) new old = takeN j new ++ dropN j old).
  { destruct (N.le_gt_cases (k - lenN L) (lenN new)); [ exists (k - lenN L); split; auto | exists (lenN new); split; [ lia | ] ]. rewrite mixed_all by (auto; lia). symmetry. apply (mixed_all (lenN new) new old); auto; lia. }
  destruct Hj as (j & Hj & ->). replace (L ++ (takeN j new ++ dropN j old) ++ T ++ data) with ((L ++ (takeN j new ++ dropN j old) ++ T) ++ data) by (rewrite <- !app_assoc; reflexivity).
  destruct (patched_reads c' d o h _ (lenN vs) data _ _ L pad props j Hg Hw Ht Hs1 Hlax Hr ltac:(fold ax; rewrite <- Hsh; exact Hs64) Hj data) as [ HE1 | HO ];
    fold ax in HE1 || fold ax in HO; [ now apply error_fine | ].
  unfold whole_or_error. rewrite cursor_run. fold ax new old T in HO. rewrite HO. rewrite <- Hsh.
  destruct (from_parts_intro c' d shape o Hno (or_intror Hnb)) as (hd & Hfp). rewrite Hfp. cbn [nf_header nf_src].
  exists shape, data. apply from_parts_ok in Hfp as (P1 & P2 & P3 & _). split; [ exact Ef | ]. split; [ exact Henc | ]. split; [ auto | ]. split; [ auto | ]. split; [ auto | ].
  unfold cur_rest. cbn [cur_data cur_pos]. set (hb := L ++ _). rewrite lenN_app. replace (lenN D + (lenN hb + lenN data - lenN data)) with (lenN (D ++ hb)) by (rewrite lenN_app; lia).
  rewrite app_assoc. now apply dropN_app.
Qed.
Lemma unmistakable_roomy o h n shape : hint_ok h -> n < 2 ^ 64 -> unmistakable o h n -> final_shape h o n = Some shape -> growing h /\ roomy o h (variable_axis h n).
Proof.
  intros Hh Hn Hu Hs. destruct h as [ sh | k | ]; [ destruct Hu | | split; exact I ]. split; [ exact I | ]. destruct o; [ | exact I ]. cbn [roomy variable_axis unmistakable hint_ok] in *.
  cbn [final_shape] in Hs. destruct (N.eqb_spec k 0) as [ | Hk0 ]; [ discriminate | ]. destruct (N.eqb_spec (n mod k) 0) as [ H0 | ]; [ | discriminate ].
  assert (Hle : n / k <= n) by (apply N.div_le_upper_bound; nia). pose proof (dec_length_u64 (n / k) ltac:(lia)). pose proof (dec_length_u64 k Hh).
  unfold mistakable, numeral_length in Hu. lia.
Qed.
Lemma shaky_safe c c' t d o h vs e D plan r y' : wf_dtype d -> strings_fit (c_usize_max c) d -> top_level d -> Forall (has_type t) vs -> lenN vs < 2 ^ 64 ->
  hint_ok h -> short_header d h -> unmistakable o h (lenN vs) -> (exists n, num_bytes c' d = Some n) ->
  session_on (@run_shaky) c t d o h (output_kind h) vs e {| y_out := {| sk_data := D; sk_pos := lenN D; sk_fuel := None |}; y_plan := plan |} = (r, y') ->
  (forall rs r', r = Ok (rs, r') -> Forall (eq (Ok tt)) rs) -> whole_or_error c' t d o h vs (sk_data (y_out y')) (lenN D).
Proof.
  intros Hw Hsf Ht Hvs Hn Hh Hs Hu Hnb H HF. set (s := {| sk_data := D; sk_pos := lenN D; sk_fuel := None |}) in *.
  destruct (shaky_sound c t d o h vs e s plan Hw Hsf Ht Hvs Hn Hh Hs eq_refl (N.le_refl _)) as (r0 & y & file & E & HO & HP & _).
  rewrite H in E. apply pair_inj in E as (<- & <-). unfold placed in HP. change (sk_data (y_out y') = overwrite D (lenN D) file) in HP. rewrite overwrite_end in HP. rewrite HP.
  assert (Hg : growing h) by (destruct h; [ destruct Hu | exact I | exact I ]).
  assert (HBR : forall data f, begun_file d o h data f -> whole_or_error c' t d o h vs (D ++ f) (lenN D)).
  { intros data f HB. apply error_fine. pose proof (begun_rejected c' d o h data f Hg Hh Hw Ht HB []) as X. now rewrite app_nil_r in X. }
  destruct HO as [ whole file HW (rest & -> & _) | msg file HM HB | rs r data file A HPs HE ].
  - apply error_fine. pose proof (begun_rejected c' d o h _ _ Hg Hh Hw Ht HW []) as X. rewrite app_nil_r in X. now apply prefix_error in X.
  - eauto.
  - specialize (HF _ _ eq_refl). apply (all_good _ _ _ _ _ HPs) in HF.
    assert (G : forall shape f, final_shape h o (lenN vs) = Some shape -> half_patched d o h shape data f -> whole_or_error c' t d o h vs (D ++ f) (lenN D)).
    { intros shape f Ef HM. destruct (unmistakable_roomy o h (lenN vs) shape Hh Hn Hu Ef) as (_ & Hr). eapply half_patched_safe; eauto. }
    destruct HE as [ e shape file Ef Hf | shape file Ef HM | shape file Ef HM | msg file HC HB | msg file HC HB | e file -> HB ]; eauto.
    apply (G shape); [ auto | ]. pose proof A as A'. apply writer_accepts in A' as (tw & Htw). destruct (create_short c d o h Hh Hs) as (dict & info & Hc & Hfi).
    destruct (begin_ok_intro c t d o h true s dict info tw Ht Hc Hfi Htw eq_refl) as (w & hdr & Hb). destruct (begin_growing c t d o h _ w _ Hg Hb) as (_ & _ & L & pad & props & Hs1).
    apply (put_growing _ _ _ _ _ _ _ _ _ _ _ (lenN vs) data None) in Hs1. rewrite N.add_0_l in Hs1. cbn [app] in Hs1.
    destruct (mixed_file c d o h _ (lenN vs) data _ _ L pad props shape Hg Hh Hw Ht Hs1 Hn Ef) as (Hlen & HB & HE). rewrite (finished_unique _ _ _ _ _ _ _ Hw Hf HE).
    match type of HE with finished_file _ _ _ _ _ ?n => match type of HB with begun_file _ _ _ _ ?o => exists (lenN n), o, n; split; [ exact HB | ]; split; [ exact HE | ];
      assert (X : lenN o = lenN n) by (rewrite !lenN_app; lia); split; [ exact X | ]; symmetry; apply (mixed_all (lenN n) n o); auto; lia end end.
Qed.

(** On an output that was empty, the bytes are the file. *)
Lemma shaky_exactly c t d o h vs e r file : wf_dtype d -> strings_fit (c_usize_max c) d -> top_level d -> Forall (has_type t) vs -> lenN vs < 2 ^ 64 ->
  hint_ok h -> short_header d h ->
  (exists plan y', session_on (@run_shaky) c t d o h (output_kind h) vs e {| y_out := empty_sink; y_plan := plan |} = (r, y') /\ sk_data (y_out y') = file)
  <-> shaky_outcome (c_usize_max c) t d o h vs e r file.
Proof.
  intros Hw Hsf Ht Hvs Hn Hh Hs. assert (X : forall f D, placed [] 0 f D <-> D = f).
  { intros f D. unfold placed. cbn [app]. rewrite dropN_all by (change (lenN (@nil N)) with 0; lia). change (takeN 0 (@nil N)) with (@nil N). cbn [app]. rewrite ?app_nil_r. reflexivity. }
  split.
  - intros (plan & y & H & <-). destruct (shaky_sound c t d o h vs e empty_sink plan Hw Hsf Ht Hvs Hn Hh Hs eq_refl (N.le_refl _)) as (r0 & y0 & f & E & HO & HP & _).
    rewrite H in E. apply pair_inj in E as (<- & <-). apply (proj1 (X _ _)) in HP. now rewrite HP.
  - intros HO. destruct (shaky_complete c t d o h vs e empty_sink r file Hw Hsf Ht Hvs Hn Hh Hs eq_refl (N.le_refl _) HO) as (plan & y & E & HP). apply (proj1 (X _ _)) in HP. eauto.
Qed.
Lemma shaky_position c t d o h vs e s plan rs r y' : wf_dtype d -> strings_fit (c_usize_max c) d -> top_level d -> Forall (has_type t) vs -> lenN vs < 2 ^ 64 ->
  hint_ok h -> short_header d h -> sk_fuel s = None -> sk_pos s <= lenN (sk_data s) ->
  session_on (@run_shaky) c t d o h (output_kind h) vs e {| y_out := s; y_plan := plan |} = (Ok (rs, r), y') ->
  exists data file, shaky_pushes t d vs rs data /\ placed (sk_data s) (sk_pos s) file (sk_data (y_out y'))
  /\ (sk_pos (y_out y') = sk_pos s + lenN file
      \/ output_kind h = true /\ sk_pos s < sk_pos (y_out y') /\ sk_pos (y_out y') + lenN data < sk_pos s + lenN file).
Proof.
  intros Hw Hsf Ht Hvs Hn Hh Hs HN Hp H. destruct (shaky_sound c t d o h vs e s plan Hw Hsf Ht Hvs Hn Hh Hs HN Hp) as (r0 & y & file & E & _ & HP & HR).
  rewrite H in E. apply pair_inj in E as (<- & <-). destruct HR as (data & HD & HR). exists data, file. split; [ auto | ]. split; [ auto | ].
  destruct HR as [ HR | (Hg & HR) ]; [ auto | right; split; auto; destruct h; [ destruct Hg | | ]; reflexivity ].
Qed.
