(** Proofs for C51 and C52: dtypes that are refused. *)
From Verif Require Import M_Base M_Text M_TypeStr M_PyLit M_IO M_Header M_Read M_Serialize M_DTypeErr M_NpyReader M_Write.
From Verif Require Import S_TypeStr S_DType S_Shape S_Header S_Elem S_Reader S_Write S_Reject.
From Verif Require Import P_Base P_Text P_TypeStr P_IO P_Shape P_Header P_Sink P_WriteHeader P_Elem P_Sizes P_Codec P_Default P_ElemT P_Reader P_Array P_Writer P_WriteFile P_Session P_Whole P_Weight P_Crash P_Reject.
Open Scope N_scope.

Lemma data_rejects c t src f src' e : npy_new c src = (Ok f, src') ->
  npy_data c t f = DErr e <->
  (has_object (h_dtype (nf_header f)) /\ e = RequiresPickle)
  \/ (~ has_object (h_dtype (nf_header f)) /\ rejects (c_usize_max c) Reading t (h_dtype (nf_header f)) e).
Proof.
  intros Hf. pose proof (object_refused c t src f src' Hf) as Ho. apply npy_new_inv in Hf as (_ & _ & d & shape & o & Hp).
  pose proof (from_parts_ok _ _ _ _ _ Hp) as (Hd & _ & _ & _ & _ & Hk & _). subst d.
  set (d := h_dtype (nf_header f)) in *. destruct (uses_pickled_array d) eqn:E.
  - apply pickled_exact in E. destruct (Ho E) as (Hn & _). rewrite Hn. split; [ intros [= <-]; auto | intros [ (_ & ->) | (Hc & _) ]; [ auto | contradiction ] ].
  - assert (No : ~ has_object d) by (rewrite <- pickled_exact; congruence). unfold npy_data. rewrite Hk. fold d. rewrite <- (reader_rejects c t d e).
    destruct (reader c t d) as [ r | e' ]; cbn [dbind]; split; try discriminate.
    + intros [ (Hc & _) | (_ & Hc) ]; [ contradiction | discriminate ].
    + intros [= ->]. auto.
    + intros [ (Hc & _) | (_ & [= ->]) ]; [ contradiction | reflexivity ].
Qed.

(** * What a refused writer leaves behind *)
Lemma begin_refused c t d o h s e dict info : top_level d -> create_dict c d o h = Ok (dict, info) -> header_fits dict ->
  rejects (c_usize_max c) Writing t d e -> sk_fuel s = None ->
  exists hdr props pad, header_of dict hdr props pad /\ begin_ c t d o h (output_kind h) s = (Err (EData (dterr_display e)), put s hdr None).
Proof.
  intros Ht Hc Hf Hr Hn. apply writer_rejects in Hr.
  assert (E : (if output_kind h then let@ p := sink_tell in sret (Ok (Some p)) else sret (Ok None)) s = (Ok (if output_kind h then Some (sk_pos s) else None), s)).
  { destruct (output_kind h); [ | reflexivity ]. unfold sbind, sink_tell. rewrite tick_none by auto. reflexivity. }
  unfold begin_, sbind at 1. rewrite E. unfold sbind.
  destruct (write_header_full c d o h dict info Ht Hc) as (pad & props & hdr & version & _ & _ & Hho & Hok & _).
  exists hdr, props, pad. split; [ auto | ]. rewrite (Hok Hf). unfold sbind. rewrite (sink_write_none s hdr Hn). cbn [sret]. rewrite Hr. reflexivity.
Qed.

Lemma refused_fixed c t d o shape s e : wf_dtype d -> top_level d -> rejects (c_usize_max c) Writing t d e ->
  Forall (fun n => n < 2 ^ 64) shape -> no_overflow shape -> short_header d (NDimensional shape) -> sk_fuel s = None ->
  exists e' s' hdr, begin_nd c t d o shape s = (Err e', s') /\ placed (sk_data s) (sk_pos s) hdr (sk_data s') /\ file_with d o shape hdr [].
Proof.
  intros Hw Ht Hr Hs Hno Hsh Hn. destruct (create_short c d o (NDimensional shape) (conj Hs Hno) Hsh) as (dict & info & Hc & Hf).
  destruct (begin_refused c t d o _ s e dict info Ht Hc Hf Hr Hn) as (hdr & props & pad & Hh & Hb).
  exists (EData (dterr_display e)), (put s hdr None), hdr. split; [ exact Hb | ]. split; [ apply placed_put; eauto using header_nonempty | ].
  apply opens_with; [ auto | ]. intros c' rest. cbn [app]. apply (read_written_nd c' d o shape hdr props pad); auto.
  rewrite header_dict_bytes. cbn [create_dict] in Hc. apply bind_ok in Hc as (n & _ & Hc). match type of Hc with Ok (?a, _) = _ => replace a with dict by congruence end. exact Hh.
Qed.

Lemma refused_growing c t d o h s e : growing h -> hint_ok h -> wf_dtype d -> top_level d -> rejects (c_usize_max c) Writing t d e ->
  short_header d h -> sk_fuel s = None ->
  exists e' s' hdr major txt, begin_ c t d o h true s = (Err e', s') /\ placed (sk_data s) (sk_pos s) hdr (sk_data s') /\ npy_layout hdr major 0 txt
  /\ forall c', exists e'' src, npy_new c' {| cur_data := sk_data s'; cur_pos := sk_pos s |} = (Err e'', src).
Proof.
  intros Hg Hk Hw Ht Hr Hsh Hn. destruct (create_short c d o h Hk Hsh) as (dict & info & Hc & Hf).
  destruct (begin_refused c t d o _ s e dict info Ht Hc Hf Hr Hn) as (hdr & props & pad & Hh & Hb).
  replace (output_kind h) with true in Hb by (destruct h; [ destruct Hg | | ]; reflexivity).
  destruct (header_layout _ _ _ _ Hh) as (major & Hl).
  assert (Hp : placed (sk_data s) (sk_pos s) hdr (sk_data (put s hdr None))) by (apply placed_put; eauto using header_nonempty).
  exists (EData (dterr_display e)), (put s hdr None), hdr, major. eexists. split; [ exact Hb | ]. split; [ exact Hp | ]. split; [ exact Hl | ].
  intros c'. rewrite create_growing in Hc by auto. match type of Hc with Ok (?a, _) = _ => replace dict with a in Hh by congruence end.
  destruct (filler_rejected c' d o h hdr props pad Hg Hw Ht Hh (dropN (sk_pos s + lenN hdr) (sk_data s))) as (e'' & r & E).
  unfold npy_new, run_cursor, cur_rest. cbn [cur_data cur_pos]. rewrite (placed_rest _ _ _ _ Hp), E. eauto.
Qed.

Lemma refused_automatic c t d o h s e : (exists k, h = TwoDimensional k /\ k < 2 ^ 64) \/ h = OneDimensional ->
  wf_dtype d -> top_level d -> rejects (c_usize_max c) Writing t d e -> short_header d h -> sk_fuel s = None ->
  exists e' s' hdr major txt, begin_ c t d o h true s = (Err e', s') /\ placed (sk_data s) (sk_pos s) hdr (sk_data s') /\ npy_layout hdr major 0 txt
  /\ forall c', exists e'' src, npy_new c' {| cur_data := sk_data s'; cur_pos := sk_pos s |} = (Err e'', src).
Proof. intros [ (k & -> & Hk) | -> ]; apply refused_growing; solve [ auto | exact I ]. Qed.

(** A fixed shape without items: the file is complete. *)
Lemma empty_reads c t d o shape pos data file data' : accepts (c_usize_max c) Reading t d -> sizes_fit (c_usize_max c) d -> count shape = 0 ->
  placed data pos file data' -> file_with d o shape file [] -> reads_as c t data' pos d o shape [].
Proof.
  intros Hr Hsz Hcnt Hp Hf. pose proof (accepts_no_object _ _ _ _ Hr) as Hno.
  assert (Hnb : exists n, num_bytes c d = Some n) by (exists (size d); apply num_bytes_exact; auto).
  destruct (Hf c (dropN (pos + lenN file) data) Hnb) as (h & Hrun & Hd & Hs & Ho & Hn). rewrite <- (placed_rest _ _ _ _ Hp) in Hrun.
  destruct (npy_new c {| cur_data := data'; cur_pos := pos |}) as (r, src') eqn:En. pose proof En as En'.
  unfold npy_new, run_cursor, cur_rest in En. cbn [cur_data cur_pos] in En. rewrite Hrun in En. apply pair_inj in En as (<- & <-).
  eexists _, _. split; [ exact En' | ]. cbn [nf_header]. do 3 (split; [ assumption | ]).
  apply reader_accepts in Hr as (rd & Hrd). set (f := {| nf_header := h; nf_src := _ |}) in *.
  assert (Hfp : h_pickled h = false).
  { apply npy_new_inv in En' as (_ & _ & d' & sh' & o' & Hp'). cbn [nf_header f] in Hp'. apply from_parts_ok in Hp' as (E & _ & _ & _ & _ & Hk & _). rewrite Hk.
    destruct (uses_pickled_array d') eqn:Eu; [ | reflexivity ]. apply pickled_exact in Eu. congruence. }
  assert (Hdata : npy_data c t f = DOk {| nr_header := h; nr_type := rd; nr_src := nf_src f; nr_index := 0 |}).
  { unfold npy_data. cbn [nf_header f]. rewrite Hfp, Hd, Hrd. reflexivity. }
  rewrite (into_vec_run c t f _ Hdata). cbn [nr_type nf_header f]. unfold run_cursor. cbn [fst]. rewrite Hn, Hcnt. reflexivity.
Qed.
Lemma refused_complete c c' t t' d o shape s e r s' : wf_dtype d -> top_level d -> rejects (c_usize_max c) Writing t d e ->
  Forall (fun n => n < 2 ^ 64) shape -> no_overflow shape -> short_header d (NDimensional shape) -> sk_fuel s = None ->
  begin_nd c t d o shape s = (r, s') -> count shape = 0 -> accepts (c_usize_max c') Reading t' d -> sizes_fit (c_usize_max c') d ->
  (exists e', r = Err e') /\ reads_as c' t' (sk_data s') (sk_pos s) d o shape [].
Proof.
  intros Hw Ht Hr Hs Hno Hsh Hn Hb Hc Ha Hz. destruct (refused_fixed c t d o shape s e Hw Ht Hr Hs Hno Hsh Hn) as (e' & s1 & hdr & Hb' & Hp & Hf).
  rewrite Hb in Hb'. apply pair_inj in Hb' as (-> & ->). split; [ eauto | ]. eapply empty_reads; eauto.
Qed.
(** Otherwise, at the end of the stream, no values can be read. *)
Lemma header_unreadable c t d o shape data hdr vs : wf_dtype d -> (exists n, num_bytes c d = Some n) ->
  file_with d o shape hdr [] -> reads_as c t (data ++ hdr) (lenN data) d o shape vs -> count shape = 0 \/ size d = 0.
Proof.
  intros Hw Hnb Hf (f & src' & Hn & Hd & Hs & Ho & Hv). destruct (Hf c [] Hnb) as (h & Hrun & _ & _ & _ & Hc). rewrite !app_nil_r in Hrun.
  pose proof Hn as Hn'. rewrite cursor_run, Hrun in Hn. cbv zeta in Hn. apply pair_inj in Hn as (E & _). apply Ok_inj in E. subst f. cbn [nf_header] in *.
  match type of Hv with fst (npy_into_vec _ _ ?f) = _ => destruct (npy_data c t f) as [ r | e ] eqn:Hr end; [ | unfold npy_into_vec in Hv; rewrite Hr in Hv; discriminate ].
  rewrite (into_vec_run c t _ r Hr) in Hv. unfold npy_data in Hr. cbn [nf_header nf_src] in Hr. destruct (h_pickled h); [ discriminate | ].
  destruct (reader c t (h_dtype h)) as [ rd | e ] eqn:Hrd; [ | discriminate ]. cbn [dbind] in Hr. match type of Hr with DOk ?a = _ => replace r with a in Hv by congruence end.
  cbn [nr_type nf_header nf_src] in Hv. unfold run_cursor in Hv. rewrite Hd in Hrd. rewrite Hc in Hv.
  assert (Er : cur_rest {| cur_data := data ++ hdr; cur_pos := lenN data + (lenN hdr - lenN (@nil N)) |} = []).
  { unfold cur_rest. cbn [cur_data cur_pos]. rewrite lenN_nil, N.sub_0_r, <- lenN_app. apply dropN_all. lia. }
  rewrite Er in Hv. destruct (run _ []) as (x, rest) eqn:E. cbn [fst] in Hv. subst x.
  destruct (replicate_blocks c t d rd Hw Hrd _ _ _ _ (Forall_nil _) E) as (blocks & H1 & H2 & H3).
  assert (Hl : lenN (List.concat blocks) = 0) by (apply (f_equal lenN) in H1; rewrite lenN_app, lenN_nil in H1; lia).
  destruct (N.eq_dec (count shape) 0); [ auto | right ]. destruct blocks as [ | b bl ].
  - exfalso. inversion H2 as [ E' | ]. destruct vs; [ cbn in H3; lia | discriminate ].
  - cbn [List.concat] in Hl. rewrite lenN_app in Hl. inversion H2 as [ | ? ? ? ? (Hb & _) ]; subst. lia.
Qed.
Lemma refused_incomplete c c' t t' d o shape s e r s' vs : wf_dtype d -> top_level d -> rejects (c_usize_max c) Writing t d e ->
  Forall (fun n => n < 2 ^ 64) shape -> no_overflow shape -> short_header d (NDimensional shape) -> sk_fuel s = None -> sk_pos s = lenN (sk_data s) ->
  begin_nd c t d o shape s = (r, s') -> reads_as c' t' (sk_data s') (sk_pos s) d o shape vs -> (exists n, num_bytes c' d = Some n) ->
  count shape = 0 \/ size d = 0.
Proof.
  intros Hw Ht Hr Hs Hno Hsh Hn He Hb Ha Hz. destruct (refused_fixed c t d o shape s e Hw Ht Hr Hs Hno Hsh Hn) as (e' & s1 & hdr & Hb' & Hp & Hf).
  rewrite Hb in Hb'. apply pair_inj in Hb' as (-> & ->). unfold placed in Hp. rewrite He in Hp, Ha.
  rewrite takeN_all, N.sub_diag, (dropN_all (lenN (sk_data s) + lenN hdr)), app_nil_r in Hp by lia. cbn [repeatN app] in Hp. rewrite Hp in Ha. cbn [app] in Ha.
  eapply header_unreadable; eauto.
Qed.

(** * to_file_1d *)
Lemma to_file_ok c c' t vs d : wf_cfg c -> has_default (c_usize_max c) t -> (forall n t', t <> RArray n t') -> Forall (has_type t) vs -> Forall units_ok vs ->
  lenN vs < 2 ^ 64 -> default_dtype c t = Some (Ok d) -> short_header d OneDimensional ->
  accepts (c_usize_max c') Reading t d -> sizes_fit (c_usize_max c') d -> strings_fit (c_usize_max c') d ->
  exists s', to_file_1d c t vs empty_sink = (Ok tt, s')
  /\ reads_as c' t (sk_data s') 0 d OrderC [lenN vs] (map (read_back t d) vs)
  /\ (Forall (survives t d) vs -> reads_as c' t (sk_data s') 0 d OrderC [lenN vs] vs).
Proof.
  intros Hc Hd Hna Hv Hu Hn Ed Hs Ha Hz Hsf. destruct (default_ok c t Hc Hd) as (d' & Ed' & Hw & _ & Hacc & Henc). rewrite Ed in Ed'. injection Ed' as <-.
  assert (Ht : top_level d).
  { destruct d as [ ts | k d | fs ]; try exact I. specialize (Hacc Writing). destruct t; try (destruct Hacc; fail); now edestruct Hna. }
  assert (He : Forall (fun v => exists b, encode t d v = Some b) vs).
  { rewrite Forall_forall in *. intros v Hin. apply Henc; auto. }
  destruct (growing_1d_succeeds c t d OrderC vs empty_sink Hw (default_fits c t d Hd Ed) Ht (Hacc Writing) Hv He Hn Hs eq_refl) as (s' & E).
  exists s'. unfold to_file_1d. rewrite Ed. split; [ exact E | ]. exact (growing_1d_round_trip c c' t d OrderC vs empty_sink s' Hw Hv Hn E Ha Hz Hsf).
Qed.
Lemma to_file_array c n t vs s : default_dtype c (RArray n t) <> None -> sk_fuel s = None -> to_file_1d c (RArray n t) vs s = (Panic, s).
Proof.
  unfold to_file_1d. cbn [default_dtype]. destruct (default_dtype c t) as [ [ d | e | ] | ]; cbn [bind]; try reflexivity; try congruence.
  intros _ Hn. unfold write_file, begin_, sbind, sink_tell, sbind. rewrite tick_none by auto. reflexivity.
Qed.
