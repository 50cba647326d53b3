(** Proofs for C64. *)
From Verif Require Import M_Base M_Text M_TypeStr M_PyLit M_IO M_Header M_Read M_Serialize M_DTypeErr M_NpyReader M_Write.
From Verif Require Import S_Text S_TypeStr S_DType S_Shape S_Header S_Elem S_Strings S_Reader S_Write S_Reject S_DText S_File S_Fault S_Message S_Outcome.
From Verif Require Import P_Base P_Text P_TypeStr P_PyLit P_Header P_IO P_Sink P_Shape P_WriteHeader P_Number P_Elem P_ReadOne P_WriteOne P_Codec P_Sizes P_Strings P_Parse P_Default P_ElemT P_Reader P_Array P_Writer P_WriteFile P_Session P_Whole T_Text P_DText P_File P_Reject P_Refuse P_Fault P_Message.
Require Import ZifyBool ZifyNat ZifyN.
Open Scope N_scope.

(** * Headers of files that were begun *)
Lemma begun_dict c d o h dict info : hint_ok h -> create_dict c d o h = Ok (dict, info) -> exists sh, begun_text h o sh /\ dict = dict_bytes_of d o sh ++ repeatN 32 0.
Proof.
  intros Hh Hc. enough (G : exists sh, begun_text h o sh /\ dict = dict_bytes_of d o sh).
  { destruct G as (sh & Hsh & ->). exists sh. split; [ auto | ]. change (repeatN 32 0) with (@nil N). now rewrite app_nil_r. }
  assert (Hg : growing h \/ exists shape, h = NDimensional shape) by (destruct h; cbn; eauto). destruct Hg as [ Hg | (shape & ->) ].
  - rewrite create_growing in Hc by auto. apply Ok_inj, pair_inj in Hc as (<- & _).
    assert (G : forall T, ascii_text T -> suffix o h filler = T ++ lit "), }" -> dict_prefix d o ++ suffix o h filler = dict_bytes_of d o T).
    { intros T HT E. rewrite E. unfold dict_bytes_of. rewrite <- dict_in. rewrite dict_bytes by (apply ascii_app; [ auto | plain_lit ]). app_norm. reflexivity. }
    destruct h as [ sh | r | ]; [ destruct Hg | | ].
    + destruct o.
      * eexists. split; [ apply begun_rows, dec_shortest | ]. apply G; [ repeat apply ascii_app; try apply dec_ascii; plain_lit | ]. unfold suffix. change (repeatN 32 (20 - lenN filler)) with (@nil N). rewrite app_nil_r. app_norm. reflexivity.
      * eexists. split; [ apply begun_cols, dec_shortest | ]. apply G; [ repeat apply ascii_app; try apply dec_ascii; plain_lit | ]. unfold suffix. change (repeatN 32 (20 - lenN filler)) with (@nil N). rewrite app_nil_r. app_norm. reflexivity.
    + eexists. split; [ apply begun_1d | ]. apply G; [ plain_lit | ]. reflexivity.
  - cbn [create_dict] in Hc. apply bind_ok in Hc as (n & _ & Hc). apply Ok_inj, pair_inj in Hc as (Hd & _).
    exists (flat_map (fun n => dec n ++ lit ", ") shape). split; [ constructor; apply listed_dec | ]. rewrite <- Hd, <- header_dict_bytes. reflexivity.
Qed.
Lemma begun_header d o h sh hdr props pad data : wf_dtype d -> top_level d -> begun_text h o sh -> header_of (dict_bytes_of d o sh ++ repeatN 32 0) hdr props pad ->
  begun_file d o h data (hdr ++ data).
Proof. intros Hw Ht Hb Hh. exists sh. split; [ auto | ]. eapply header_laid_out; eauto. Qed.

(** * Pushes *)
Lemma storable c t d w v : wf_dtype d -> strings_fit (c_usize_max c) d -> writer c t d = DOk w -> has_type t v ->
  (exists b, encode t d v = Some b /\ write_one c w v = (b, Ok tt)) \/ (exists out msg, unstorable t d v out msg /\ write_one c w v = (out, Err (EData msg))).
Proof.
  intros Hw Hs Hr Hv. destruct (one_unstorable c t d w v Hw Hs Hr Hv) as [ (b & E & _) | (_ & out & msg & E & _) ].
  - left. exists b. split; [ auto | ]. now apply (write_exact c t d).
  - right. exists out, msg. split; [ auto | ]. apply (unstorable_exact c t d w v); eauto.
Qed.
Lemma push_each_exact c t d vs : wf_dtype d -> strings_fit (c_usize_max c) d -> Forall (has_type t) vs -> forall w s, writer c t d = DOk (w_writer w) ->
  w_num_items w + lenN vs < 2 ^ 64 -> sk_fuel s = None ->
  exists rs data, push_each c vs w s = (rs, with_count w (w_num_items w + lenN vs), put s data None) /\ pushes t d vs rs data.
Proof.
  intros Hw Hs Hvs. induction Hvs as [ | v vs Hv Hvs IH ]; intros w s Hr Hn HN.
  - exists [], []. cbn [push_each]. change (lenN (@nil val)) with 0. rewrite N.add_0_r, with_count_id, put_nil. split; [ destruct s; cbn in *; now subst | constructor ].
  - rewrite lenN_cons in *. cbn [push_each]. rewrite push_eq by lia.
    assert (G : forall bs r, write_one c (w_writer w) v = (bs, r) -> (forall rs data, pushes t d vs rs data -> pushes t d (v :: vs) (r :: rs) (bs ++ data)) ->
      exists rs data, (let '(r', w', s') := (let '(bs, r) := write_one c (w_writer w) v in let '(r', s') := (let@ _u := sink_write bs in sret r) s in (r', with_count w (w_num_items w + 1), s')) in
        let '(rs, w'', s'') := push_each c vs w' s' in (r' :: rs, w'', s'')) = (rs, with_count w (w_num_items w + (1 + lenN vs)), put s data None) /\ pushes t d (v :: vs) rs data).
    { intros bs r E HP. rewrite E. unfold sbind. rewrite (sink_write_none s bs HN). unfold sret.
      destruct (IH (with_count w (w_num_items w + 1)) (put s bs None)) as (rs & data & E2 & P2); [ exact Hr | cbn [with_count w_num_items]; lia | reflexivity | ].
      exists (r :: rs), (bs ++ data). rewrite E2, put_put. split; [ | auto ]. cbn [with_count w_num_items]. f_equal. f_equal. transitivity (with_count w (w_num_items w + 1 + lenN vs)); [ reflexivity | f_equal; lia ]. }
    destruct (storable c t d (w_writer w) v Hw Hs Hr Hv) as [ (b & Eb & E) | (out & msg & Eu & E) ]; rewrite ?N.add_assoc in *.
    + replace (lenN vs + 1) with (1 + lenN vs) by lia. apply (G _ _ E). intros. now constructor.
    + replace (lenN vs + 1) with (1 + lenN vs) by lia. apply (G _ _ E). intros. now constructor.
Qed.

(** * The end *)
Lemma end_exact c t d o h s w s1 n data e : wf_dtype d -> hint_ok h -> n < 2 ^ 64 -> sk_fuel s = None ->
  begin_ c t d o h (output_kind h) s = (Ok w, s1) ->
  exists r s' file, ended e (with_count w n) (put s1 data None) = (r, s') /\ ends e h o n r /\ left_behind d o h n data file
  /\ placed (sk_data s) (sk_pos s) file (sk_data s') /\ sk_pos s' = sk_pos s + lenN file /\ sk_fuel s' = None.
Proof.
  intros Hw Hh Hn HN Hb. assert (Hg : growing h \/ exists shape, h = NDimensional shape) by (destruct h; cbn; eauto). destruct Hg as [ Hg | (shape & ->) ].
  - replace (output_kind h) with true in Hb by (destruct h; [ destruct Hg | | ]; reflexivity).
    destruct (begin_growing c t d o h s w s1 Hg Hb) as (Ht & _ & L & pad & props & Hs1).
    apply (put_growing _ _ _ _ _ _ _ _ _ _ _ n data None) in Hs1. rewrite (gs_count _ _ _ _ _ _ _ _ _ _ _ Hs1) in Hs1 || idtac.
    assert (Hc : with_count w (w_num_items w + n) = with_count w n).
    { pose proof (gs_count _ _ _ _ _ _ _ _ _ _ _ Hs1) as E. cbn [with_count w_num_items] in E. f_equal. exact E. }
    rewrite Hc, N.add_0_l in Hs1. cbn [app] in Hs1. pose proof (gs_headers _ _ _ _ _ _ _ _ _ _ _ Hs1) as HH.
    pose proof (finish_state d o h s n data _ _ L pad props Hg Hn Hs1) as HF. unfold left_behind. destruct (final_shape h o n) as [ shape | ] eqn:Ef.
    + destruct HF as (Esh & Hax & HF). destruct (finish (with_count w n) (put s1 data None)) as (r, s') eqn:E. destruct (HF _ _ eq_refl) as (_ & [ (-> & Hd & HP) | (_ & (m & Hm) & _) ]); [ | discriminate ].
      destruct (HP eq_refl) as (Hp & Hfu & E'). 
      assert (Hx : lenN (dec (variable_axis h n)) <= 20) by (apply dec_length_u64; lia).
      specialize (HH (dec (variable_axis h n)) Hx (dec_ascii _)). exists (Ok tt), s', ((L ++ suffix o h (dec (variable_axis h n)) ++ repeatN 32 pad ++ [10]) ++ data).
      split; [ destruct e; cbn [ended]; [ exact E | unfold drop_writer; now rewrite E' ] | ]. split; [ econstructor; eauto | ].
      destruct (final_dict_text d o h n shape (fun _ => Esh) Ef) as (sh & reserve & Hsh & Ed).
      replace (final_dict d o h n) with (dict_prefix d o ++ suffix o h (dec (variable_axis h n))) in Ed by (destruct h; [ destruct Hg | | ]; reflexivity). rewrite Ed in HH.
      split; [ eapply header_of_file; eauto | ]. split.
      * rewrite Hd. unfold placed, overwrite. app_norm. reflexivity.
      * split; [ | auto ]. rewrite Hp, (gs_pos _ _ _ _ _ _ _ _ _ _ _ Hs1), !lenN_app, !suffix_len by (auto; apply filler_ok). lia.
    + destruct HF as (r & Er & _ & HF & HD). exists (fst (ended e (with_count w n) (put s1 data None))), (put s1 data None), ((L ++ suffix o h filler ++ repeatN 32 pad ++ [10]) ++ data).
      split; [ destruct e; cbn [ended]; rewrite ?HF, ?HD; reflexivity | ]. split.
      { subst h. cbn [final_shape] in Ef. cbn [with_count w_num_items] in HF. destruct (N.eqb_spec r 0) as [ -> | Hr ].
        - destruct e; cbn [ended]; rewrite ?HF, ?HD; constructor.
        - cbn [orb] in Ef. destruct (N.eqb_spec (n mod r) 0) as [ | Hm ]; [ discriminate | ].
          assert (CC : count_complaint (TwoDimensional r) n (dec n ++ lit " item(s) is not divisible by " ++ dec r ++ lit "!")) by (constructor; auto using dec_shortest).
          destruct e; cbn [ended]; rewrite ?HF, ?HD; econstructor; exact CC. }
      split.
      { specialize (HH filler (proj1 filler_ok) (proj2 filler_ok)).
        destruct (begun_dict c d o h _ _ Hh (create_growing c d o h Hg)) as (sh & Hsh & Ed). rewrite Ed in HH. eapply begun_header; eauto. }
      split; [ rewrite (gs_data _ _ _ _ _ _ _ _ _ _ _ Hs1); unfold placed, overwrite; app_norm; reflexivity | ].
      split; [ rewrite (gs_pos _ _ _ _ _ _ _ _ _ _ _ Hs1); app_norm; reflexivity | reflexivity ].
  - pose proof Hb as Hb'. apply begin_ok_inv in Hb' as (Ht & dict & pad & hdr & props & info & tw & Hc & Hho & _ & Hwr & Hs & Ew).
    pose proof (begun_dict c d o _ _ _ Hh Hc) as (sh & Hsh & Ed). cbn [create_dict] in Hc. apply bind_ok in Hc as (x & Hx & Hc). apply Ok_inj, pair_inj in Hc as (_ & Hi).
    assert (Ex : x = count shape).
    { destruct Hh as (H64 & Hno). unfold product in Hx. rewrite product_from_fits in Hx by now apply no_overflow_fits. apply Ok_inj in Hx. lia. }
    assert (Es : put s1 data None = put s (hdr ++ data) None) by (rewrite Hs, put_put; reflexivity).
    assert (HK : w_shape_info (with_count w n) = Known (count shape)) by (rewrite Ew, <- Hi, Ex; reflexivity).
    assert (Hk : w_num_items (with_count w n) = n) by reflexivity.
    assert (Hf : forall q, sk_fuel q = None -> finish_ (with_count w n) q = (if count shape =? n then Ok tt else Err (wrong_count (count shape) n), q)).
    { intros q Hq. unfold finish_. rewrite HK, Hk. destruct (N.eqb_spec (count shape) n); cbn [negb]; [ unfold sink_flush; now rewrite tick_none | reflexivity ]. }
    exists (match e with Finished => if count shape =? n then Ok tt else Err (wrong_count (count shape) n) | Dropped => Ok tt end), (put s (hdr ++ data) None), (hdr ++ data).
    split.
    { rewrite Es. destruct e; cbn [ended]; unfold finish, drop_writer; rewrite !(Hf (put s (hdr ++ data) None)) by reflexivity; destruct (count shape =? n); rewrite ?(Hf (put s (hdr ++ data) None)) by reflexivity; try reflexivity.
      all: destruct (count shape =? n) eqn:Eq; reflexivity. }
    split.
    { destruct (N.eqb_spec (count shape) n) as [ Eq | Eq ].
      - destruct e; apply (ends_well _ _ _ _ shape); cbn [final_shape]; now replace (count shape =? n) with true by lia.
      - assert (CC : count_complaint (NDimensional shape) n (lit "shape has " ++ dec (count shape) ++ lit " item(s), but " ++ dec n ++ lit " item(s) were written!")) by (constructor; auto using dec_shortest).
        destruct e; econstructor; exact CC. }
    split.
    { rewrite Ed in Hho. unfold left_behind. cbn [final_shape]. destruct (count shape =? n).
      - exists sh, 0. split; [ inversion Hsh; subst; now constructor | ]. eapply header_laid_out; eauto.
      - eapply begun_header; eauto. }
    split; [ apply placed_put; intros E; apply app_eq_nil in E as (E & _); eapply header_nonempty; eauto | ]. split; reflexivity.
Qed.

Lemma refused_outcome c t d o h s msg : wf_dtype d -> top_level d -> hint_ok h -> short_header d h -> sk_fuel s = None -> write_complaint (c_usize_max c) t d msg ->
  exists s' file, begin_ c t d o h (output_kind h) s = (Err (EData msg), s') /\ begun_file d o h [] file
  /\ placed (sk_data s) (sk_pos s) file (sk_data s') /\ sk_pos s' = sk_pos s + lenN file /\ sk_fuel s' = None.
Proof.
  intros Hw Ht Hh Hs HN (e & He & Hm). destruct (create_short c d o h Hh Hs) as (dict & info & Hc & Hf).
  destruct (begin_refused c t d o h s e dict info Ht Hc Hf He HN) as (hdr & props & pad & Hho & Hb).
  apply (display_of_rejection _ _ _ _ _ _ Hw He) in Hm. rewrite Hm in Hb || rewrite <- Hm in Hb. destruct (begun_dict c d o h dict info Hh Hc) as (sh & Hsh & Ed). rewrite Ed in Hho.
  exists (put s hdr None), hdr. split; [ exact Hb | ]. split; [ rewrite <- (app_nil_r hdr); eapply begun_header; eauto | ].
  split; [ apply placed_put; eapply header_nonempty; eauto | ]. split; reflexivity.
Qed.

Lemma accepted_or_complaint c t d : wf_dtype d -> accepts (c_usize_max c) Writing t d \/ exists msg, write_complaint (c_usize_max c) t d msg.
Proof.
  intros Hw. destruct (writer c t d) as [ w | e ] eqn:E; [ left; apply writer_accepts; eauto | right ]. apply writer_rejects in E. exists (dterr_display e), e. split; [ auto | ].
  now apply (display_of_rejection _ _ _ _ _ _ Hw E).
Qed.

Lemma session_exact c t d o h vs e s : wf_dtype d -> strings_fit (c_usize_max c) d -> top_level d -> Forall (has_type t) vs -> lenN vs < 2 ^ 64 ->
  hint_ok h -> short_header d h -> sk_fuel s = None ->
  exists r file s', session c t d o h (output_kind h) vs e s = (r, s') /\ session_outcome (c_usize_max c) t d o h vs e r file
  /\ placed (sk_data s) (sk_pos s) file (sk_data s') /\ sk_pos s' = sk_pos s + lenN file /\ sk_fuel s' = None.
Proof.
  intros Hw Hsf Ht Hvs Hn Hh Hs HN. destruct (accepted_or_complaint c t d Hw) as [ A | (msg & M) ].
  - pose proof A as A'. apply writer_accepts in A' as (tw & Htw). destruct (create_short c d o h Hh Hs) as (dict & info & Hc & Hf).
    destruct (begin_ok_intro c t d o h (output_kind h) s dict info tw Ht Hc Hf Htw HN) as (w & hdr & Hb). unfold session. rewrite Hb.
    pose proof Hb as Hb'. apply begin_ok_inv in Hb' as (_ & ? & ? & ? & ? & ? & tw' & _ & _ & _ & Htw' & _ & Ew).
    assert (Hwr : writer c t d = DOk (w_writer w)) by (rewrite Ew; exact Htw'). assert (H0 : w_num_items w = 0) by (rewrite Ew; reflexivity).
    destruct (push_each_exact c t d vs Hw Hsf Hvs w (put s hdr None) Hwr ltac:(lia) eq_refl) as (rs & data & Ep & HP). rewrite Ep, H0, N.add_0_l.
    destruct (end_exact c t d o h s w _ (lenN vs) data e Hw Hh Hn HN Hb) as (r & s' & file & Ee & H1 & H2 & H3). rewrite Ee.
    exists (Ok (rs, r)), file, s'. split; [ reflexivity | ]. split; [ econstructor; eauto | auto ].
  - destruct (refused_outcome c t d o h s msg Hw Ht Hh Hs HN M) as (s' & file & Hb & H1 & H2). unfold session. rewrite Hb. exists (Err (EData msg)), file, s'.
    split; [ reflexivity | ]. split; [ now constructor | auto ].
Qed.

(** * Everything at once *)
Lemma extend_exact c t d vs : wf_dtype d -> strings_fit (c_usize_max c) d -> Forall (has_type t) vs -> forall w s, writer c t d = DOk (w_writer w) ->
  w_num_items w + lenN vs < 2 ^ 64 -> sk_fuel s = None ->
  (exists payload, encodings t d vs payload /\ extend c vs w s = (Ok tt, with_count w (w_num_items w + lenN vs), put s payload None))
  \/ (exists before v after payload out msg, vs = before ++ v :: after /\ encodings t d before payload /\ unstorable t d v out msg
      /\ extend c vs w s = (Err (EData msg), with_count w (w_num_items w + (lenN before + 1)), put s (payload ++ out) None)).
Proof.
  intros Hw Hs Hvs. induction Hvs as [ | v vs Hv Hvs IH ]; intros w s Hr Hn HN.
  - left. exists []. cbn [extend]. change (lenN (@nil val)) with 0. rewrite N.add_0_r, with_count_id, put_nil. split; [ apply encodings_nil | destruct s; cbn in *; now subst ].
  - rewrite lenN_cons in *. cbn [extend]. rewrite push_eq by lia.
    destruct (storable c t d (w_writer w) v Hw Hs Hr Hv) as [ (b & Eb & E) | (out & msg & Eu & E) ]; rewrite E; unfold sbind; rewrite (sink_write_none s _ HN); unfold sret.
    + destruct (IH (with_count w (w_num_items w + 1)) (put s b None)) as [ (payload & E2 & P2) | (before & v' & after & payload & out & msg & -> & E2 & U & P2) ];
        [ exact Hr | cbn [with_count w_num_items]; lia | reflexivity | | ].
      * left. exists (b ++ payload). rewrite P2, put_put. split; [ now apply encodings_cons | ]. cbn [with_count w_num_items]. f_equal. f_equal.
        transitivity (with_count w (w_num_items w + 1 + lenN vs)); [ reflexivity | f_equal; lia ].
      * right. exists (v :: before), v', after, (b ++ payload), out, msg. split; [ reflexivity | ]. split; [ now apply encodings_cons | ]. split; [ auto | ].
        rewrite P2, put_put, app_assoc. cbn [with_count w_num_items]. f_equal. f_equal. rewrite lenN_cons.
        transitivity (with_count w (w_num_items w + 1 + (lenN before + 1))); [ reflexivity | f_equal; lia ].
    + right. exists [], v, vs, [], out, msg. split; [ reflexivity | ]. split; [ apply encodings_nil | ]. split; [ auto | ]. reflexivity.
Qed.

Lemma write_outcome_exact c t d o h vs s : wf_dtype d -> strings_fit (c_usize_max c) d -> top_level d -> Forall (has_type t) vs -> lenN vs < 2 ^ 64 ->
  hint_ok h -> short_header d h -> sk_fuel s = None ->
  exists r file s', write_file c t d o h (output_kind h) vs s = (r, s') /\ write_outcome (c_usize_max c) t d o h vs r file
  /\ placed (sk_data s) (sk_pos s) file (sk_data s') /\ sk_pos s' = sk_pos s + lenN file /\ sk_fuel s' = None.
Proof.
  intros Hw Hsf Ht Hvs Hn Hh Hs HN. destruct (accepted_or_complaint c t d Hw) as [ A | (msg & M) ].
  - pose proof A as A'. apply writer_accepts in A' as (tw & Htw). destruct (create_short c d o h Hh Hs) as (dict & info & Hc & Hf).
    destruct (begin_ok_intro c t d o h (output_kind h) s dict info tw Ht Hc Hf Htw HN) as (w & hdr & Hb). unfold write_file, sbind. rewrite Hb.
    pose proof Hb as Hb'. apply begin_ok_inv in Hb' as (_ & ? & ? & ? & ? & ? & tw' & _ & _ & _ & Htw' & _ & Ew).
    assert (Hwr : writer c t d = DOk (w_writer w)) by (rewrite Ew; exact Htw'). assert (H0 : w_num_items w = 0) by (rewrite Ew; reflexivity).
    unfold push_all_and_finish.
    destruct (extend_exact c t d vs Hw Hsf Hvs w (put s hdr None) Hwr ltac:(lia) eq_refl) as [ (payload & E & X) | (before & v & after & payload & out & msg & E & E2 & U & X) ];
      rewrite X, H0, N.add_0_l.
    + destruct (end_exact c t d o h s w _ (lenN vs) payload Finished Hw Hh Hn HN Hb) as (r & s' & file & Ee & H1 & H2 & H3). cbn [ended] in Ee. rewrite Ee.
      exists r, file, s'. split; [ reflexivity | ]. split; [ eapply write_all; eauto | auto ].
    + assert (Hl : lenN before + 1 < 2 ^ 64). { rewrite E, lenN_app, lenN_cons in Hn. lia. }
      destruct (end_exact c t d o h s w _ (lenN before + 1) (payload ++ out) Dropped Hw Hh Hl HN Hb) as (r & s' & file & Ee & H1 & H2 & H3). cbn [ended] in Ee. rewrite Ee.
      exists (match h with TwoDimensional 0 => Panic | _ => Err (EData msg) end), file, s'. split; [ | split; [ eapply write_stuck; eauto | auto ] ].
      inversion H1; subst; auto.
      * destruct h as [ sh | [ | p ] | ]; try reflexivity. discriminate.
      * match goal with C : count_complaint _ _ _ |- _ => inversion C; subst; auto end. destruct r; [ congruence | reflexivity ].
  - destruct (refused_outcome c t d o h s msg Hw Ht Hh Hs HN M) as (s' & file & Hb & H1 & H2). unfold write_file, sbind. rewrite Hb. exists (Err (EData msg)), file, s'.
    split; [ reflexivity | ]. split; [ now constructor | auto ].
Qed.

(** * Nothing is left open *)
Lemma begun_text_unique h o sh sh' : begun_text h o sh -> begun_text h o sh' -> sh = sh'.
Proof.
  intros H1 H2. inversion H1; subst; inversion H2; subst;
  repeat match goal with H : listed _ _ _ |- _ => apply listed_unique in H | H : shortest_numeral _ _ |- _ => apply shortest_unique in H end; subst; auto.
Qed.
Lemma begun_unique d o h p f1 f2 : wf_dtype d -> begun_file d o h p f1 -> begun_file d o h p f2 -> f1 = f2.
Proof. intros Hw (sh & S & F) (sh' & S' & F'). rewrite (begun_text_unique _ _ _ _ S' S) in F'. eapply laid_out_unique; eauto. Qed.
Lemma left_unique d o h n p f1 f2 : wf_dtype d -> left_behind d o h n p f1 -> left_behind d o h n p f2 -> f1 = f2.
Proof. intros Hw. unfold left_behind. destruct (final_shape h o n); [ now apply finished_unique | now apply begun_unique ]. Qed.
Lemma complaint_unique h n m1 m2 : count_complaint h n m1 -> count_complaint h n m2 -> m1 = m2.
Proof.
  intros H1 H2. inversion H1; subst; inversion H2; subst;
  repeat match goal with H : shortest_numeral _ _ |- _ => apply shortest_unique in H end; subst; auto.
Qed.
Lemma complaint_no_shape h o n msg shape : count_complaint h n msg -> final_shape h o n = Some shape -> False.
Proof.
  intros [ sh k e a H _ _ | r k e a H0 H _ _ ]; cbn [final_shape]; [ replace (count sh =? k) with false by lia | replace (r =? 0) with false by lia; replace (k mod r =? 0) with false by lia ]; discriminate.
Qed.
Lemma ends_unique e h o n r1 r2 : ends e h o n r1 -> ends e h o n r2 -> r1 = r2.
Proof.
  intros H1 H2. inversion H1; subst; inversion H2; subst; auto;
  try (exfalso; eapply complaint_no_shape; eassumption); try discriminate;
  try match goal with C : count_complaint (TwoDimensional 0) _ _ |- _ => inversion C; congruence end.
  f_equal. f_equal. eapply complaint_unique; eauto.
Qed.
Lemma pushes_unique c t d w vs : wf_dtype d -> strings_fit (c_usize_max c) d -> writer c t d = DOk w -> Forall (has_type t) vs ->
  forall r1 p1 r2 p2, pushes t d vs r1 p1 -> pushes t d vs r2 p2 -> r1 = r2 /\ p1 = p2.
Proof.
  intros Hw Hs Hr Hvs. induction Hvs as [ | v vs Hv Hvs IH ]; intros r1 p1 r2 p2 H1 H2.
  - inversion H1; subst; inversion H2; subst; auto.
  - destruct (one_unstorable c t d w v Hw Hs Hr Hv) as [ (b & E & N) | (E & out & msg & U & N) ];
    inversion H1; subst; inversion H2; subst; try congruence; try (exfalso; eapply N; eassumption).
    + match goal with A : pushes _ _ vs _ _, B : pushes _ _ vs _ _ |- _ => destruct (IH _ _ _ _ A B) as (-> & ->) end. split; congruence.
    + match goal with A : pushes _ _ vs _ _, B : pushes _ _ vs _ _ |- _ => destruct (IH _ _ _ _ A B) as (-> & ->) end.
      match goal with A : unstorable _ _ v ?a ?b, B : unstorable _ _ v ?x ?y |- (Err (EData ?b) :: _ = Err (EData ?y) :: _) /\ _ => destruct (N _ _ A) as (-> & ->); destruct (N _ _ B) as (-> & ->) end. auto.
Qed.
Lemma write_complaint_unique c t d m1 m2 : wf_dtype d -> write_complaint (c_usize_max c) t d m1 -> write_complaint (c_usize_max c) t d m2 -> m1 = m2.
Proof.
  intros Hw (e1 & R1 & M1) (e2 & R2 & M2). apply (display_of_rejection _ _ _ _ _ _ Hw R1) in M1. apply (display_of_rejection _ _ _ _ _ _ Hw R2) in M2.
  apply (writer_rejects c t d) in R1, R2. congruence.
Qed.
Lemma accepts_or_complains c t d msg : accepts (c_usize_max c) Writing t d -> write_complaint (c_usize_max c) t d msg -> False.
Proof. intros A (e & R & _). apply (writer_rejects c t d) in R. apply writer_accepts in A as (w & E). congruence. Qed.

Lemma session_unique c t d o h vs e r1 f1 r2 f2 : wf_dtype d -> strings_fit (c_usize_max c) d -> Forall (has_type t) vs ->
  session_outcome (c_usize_max c) t d o h vs e r1 f1 -> session_outcome (c_usize_max c) t d o h vs e r2 f2 -> r1 = r2 /\ f1 = f2.
Proof.
  intros Hw Hs Hvs [ m1 g1 M1 F1 | s1 q1 p1 g1 A1 P1 E1 L1 ] [ m2 g2 M2 F2 | s2 q2 p2 g2 A2 P2 E2 L2 ]; try (exfalso; eapply accepts_or_complains; eassumption).
  - rewrite (write_complaint_unique _ _ _ _ _ Hw M1 M2). split; [ reflexivity | ]. eapply begun_unique; eauto.
  - pose proof A1 as A. apply writer_accepts in A as (w & Hr). destruct (pushes_unique c t d w vs Hw Hs Hr Hvs _ _ _ _ P1 P2) as (-> & ->).
    rewrite (ends_unique _ _ _ _ _ _ E1 E2). split; [ reflexivity | ]. eapply left_unique; eauto.
Qed.
Lemma write_unique c t d o h vs r1 f1 r2 f2 : wf_dtype d -> strings_fit (c_usize_max c) d -> Forall (has_type t) vs ->
  write_outcome (c_usize_max c) t d o h vs r1 f1 -> write_outcome (c_usize_max c) t d o h vs r2 f2 -> r1 = r2 /\ f1 = f2.
Proof.
  intros Hw Hs Hvs H1 H2.
  assert (C : forall v w, In v vs -> writer c t d = DOk w -> (exists b, encode t d v = Some b /\ forall out msg, ~ unstorable t d v out msg) \/
     (encode t d v = None /\ exists out msg, unstorable t d v out msg /\ forall out' msg', unstorable t d v out' msg' -> out' = out /\ msg' = msg)).
  { intros v w Hv Hr. rewrite Forall_forall in Hvs. apply (one_unstorable c t d w v); auto. }
  assert (K : forall v w out msg, In v vs -> writer c t d = DOk w -> unstorable t d v out msg -> encode t d v = None).
  { intros v w out msg Hv Hr U. destruct (C v w Hv Hr) as [ (b & _ & N) | (E & _) ]; [ exfalso; eapply N; eauto | auto ]. }
  assert (Q : forall before v after l p w out msg, vs = before ++ v :: after -> writer c t d = DOk w -> unstorable t d v out msg -> encodings t d l p -> ~ exists l', l = before ++ v :: l').
  { intros before v after l p w out msg E Hr U (bl & H & _) (l' & ->). apply Forall2_app_inv_l in H as (l1 & l2 & _ & H & _). inversion H; subst.
    match goal with X : encode t d v = Some _ |- _ => rewrite (K v w out msg) in X; auto end; [ discriminate | apply in_or_app; right; now left ]. }
  destruct H1 as [ m1 g1 M1 F1 | b1 v1 a1 p1 o1 m1 g1 q1 A1 E1 P1 U1 L1 Q1 | p1 g1 q1 A1 P1 E1 L1 ]; destruct H2 as [ m2 g2 M2 F2 | b2 v2 a2 p2 o2 m2 g2 q2 A2 E2 P2 U2 L2 Q2 | p2 g2 q2 A2 P2 E2 L2 ];
    try (exfalso; eapply accepts_or_complains; eassumption); try (pose proof A1 as A; apply writer_accepts in A as (w & Hr)).
  - rewrite (write_complaint_unique _ _ _ _ _ Hw M1 M2). split; [ reflexivity | ]. eapply begun_unique; eauto.
  - assert (T : b1 = b2 /\ v1 = v2).
    { assert (E : b1 ++ v1 :: a1 = b2 ++ v2 :: a2) by congruence. pose proof (Q _ _ _ _ _ w _ _ E1 Hr U1 P2) as N1. pose proof (Q _ _ _ _ _ w _ _ E2 Hr U2 P1) as N2.
      clear - E N1 N2. revert b2 E N1 N2. induction b1 as [ | x b1 IH ]; intros [ | y b2 ] E N1 N2; cbn [app] in E.
      - inversion E; auto. - inversion E; subst. elim N1. exists b2. reflexivity. - inversion E; subst. elim N2. exists b1. reflexivity.
      - inversion E; subst. destruct (IH b2) as (-> & ->); auto.
        + intros (l & ->). apply N1. exists l. reflexivity. + intros (l & ->). apply N2. exists l. reflexivity. }
    destruct T as (<- & <-). rewrite (encodings_fun _ _ _ _ _ P2 P1) in *.
    destruct (C v1 w) as [ (b & _ & N) | (_ & out & msg & _ & N) ]; [ rewrite E1; apply in_or_app; right; now left | exact Hr | exfalso; eapply N; eauto | ].
    destruct (N _ _ U1) as (-> & ->). destruct (N _ _ U2) as (-> & ->). split; [ congruence | ]. eapply left_unique; eauto.
  - exfalso. eapply (Q b1 v1 a1 vs p2); eauto.
  - exfalso. eapply (Q b2 v2 a2 vs p1); eauto.
  - rewrite (encodings_fun _ _ _ _ _ P2 P1) in *. rewrite (ends_unique _ _ _ _ _ _ E1 E2). split; [ reflexivity | ]. eapply left_unique; eauto.
Qed.

Lemma placed_inj data pos f1 f2 data' : lenN f1 = lenN f2 -> placed data pos f1 data' -> placed data pos f2 data' -> f1 = f2.
Proof.
  unfold placed. intros L -> H. apply app_inv_head, app_inv_head in H. apply app_inj_lenN in H; tauto.
Qed.
Lemma session_iff c t d o h vs e s r file : wf_dtype d -> strings_fit (c_usize_max c) d -> top_level d -> Forall (has_type t) vs -> lenN vs < 2 ^ 64 ->
  hint_ok h -> short_header d h -> sk_fuel s = None ->
  (exists s', session c t d o h (output_kind h) vs e s = (r, s') /\ placed (sk_data s) (sk_pos s) file (sk_data s') /\ sk_pos s' = sk_pos s + lenN file)
  <-> session_outcome (c_usize_max c) t d o h vs e r file.
Proof.
  intros Hw Hsf Ht Hvs Hn Hh Hs HN. destruct (session_exact c t d o h vs e s Hw Hsf Ht Hvs Hn Hh Hs HN) as (r0 & f0 & s0 & E & O & P & L & _). rewrite E. split.
  - intros (s' & X & P' & L'). apply pair_inj in X as (<- & <-). rewrite (placed_inj _ _ file f0 _ ltac:(lia) P' P). exact O.
  - intros O'. destruct (session_unique _ _ _ _ _ _ _ _ _ _ _ Hw Hsf Hvs O O') as (-> & ->). eauto.
Qed.
Lemma write_iff c t d o h vs s r file : wf_dtype d -> strings_fit (c_usize_max c) d -> top_level d -> Forall (has_type t) vs -> lenN vs < 2 ^ 64 ->
  hint_ok h -> short_header d h -> sk_fuel s = None ->
  (exists s', write_file c t d o h (output_kind h) vs s = (r, s') /\ placed (sk_data s) (sk_pos s) file (sk_data s') /\ sk_pos s' = sk_pos s + lenN file)
  <-> write_outcome (c_usize_max c) t d o h vs r file.
Proof.
  intros Hw Hsf Ht Hvs Hn Hh Hs HN. destruct (write_outcome_exact c t d o h vs s Hw Hsf Ht Hvs Hn Hh Hs HN) as (r0 & f0 & s0 & E & O & P & L & _). rewrite E. split.
  - intros (s' & X & P' & L'). apply pair_inj in X as (<- & <-). rewrite (placed_inj _ _ file f0 _ ltac:(lia) P' P). exact O.
  - intros O'. destruct (write_unique _ _ _ _ _ _ _ _ _ _ Hw Hsf Hvs O O') as (-> & ->). eauto.
Qed.
