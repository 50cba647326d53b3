(** Several arrays in one stream. *)
From Verif Require Import M_Base M_Text M_TypeStr M_PyLit M_IO M_Header M_Read M_Serialize M_NpyReader M_Write.
From Verif Require Import S_TypeStr S_DType S_Shape S_Header S_Elem S_Strings S_Reader S_Write S_Stream
  P_Base P_Text P_TypeStr P_PyLit P_Header P_IO P_Sink P_Shape P_WriteHeader P_Number P_Elem P_ReadOne P_WriteOne P_Codec P_Sizes P_Strings P_Parse P_Default P_ElemT P_Reader P_Array P_Writer P_WriteFile P_Session P_Whole.
Open Scope N_scope.

(** * The read program and the reader *)
Lemma run_cursor_bind {A B} (p : rprog A) (k : A -> rprog B) src : run_cursor (rbind p k) src =
  match run_cursor p src with
  | (Ok a, src') => run_cursor (k a) src'
  | (Err e, src') => (Err e, src')
  | (Panic, src') => (Panic, src')
  end.
Proof.
  unfold run_cursor. rewrite run_bind. destruct (run p (cur_rest src)) as ([ a | e | ], rest) eqn:E; cbn [then_]; auto.
  assert (Hrest : cur_rest {| cur_data := cur_data src; cur_pos := cur_pos src + (lenN (cur_rest src) - lenN rest) |} = rest).
  { apply run_suffix in E as (used & Hu). unfold cur_rest at 1. cbn [cur_data cur_pos]. rewrite N.add_comm, <- dropN_dropN. fold (cur_rest src). rewrite Hu, lenN_app, N.add_sub. now apply dropN_app. }
  rewrite Hrest. cbn [cur_data cur_pos]. destruct (run (k a) rest) as (r, rest') eqn:E'. do 2 f_equal.
  apply run_suffix in E as (u & Hu). apply run_suffix in E' as (u' & Hu'). rewrite Hu, Hu', !lenN_app. lia.
Qed.
Lemma run_cursor_ret {A} (a : A) src : run_cursor (RRet a) src = (Ok a, src).
Proof. unfold run_cursor. cbn [run]. rewrite N.sub_diag, N.add_0_r. now destruct src. Qed.
Lemma run_cursor_err {A} e src : run_cursor (RErr e : rprog A) src = (Err e, src).
Proof. unfold run_cursor. cbn [run]. rewrite N.sub_diag, N.add_0_r. now destruct src. Qed.

Lemma prog_same c t src : run_cursor (into_vec_prog c t) src =
  match npy_new c src with
  | (Ok f, _) => match npy_into_vec c t f with (x, src') => (let* vs := x in Ok (nf_header f, vs), src') end
  | (Err e, src') => (Err e, src')
  | (Panic, src') => (Panic, src')
  end.
Proof.
  unfold into_vec_prog, npy_new. rewrite run_cursor_bind. destruct (run_cursor (read_and_interpret c) src) as ([ h | e | ], src'); auto.
  destruct (npy_data c t {| nf_header := h; nf_src := src' |}) as [ r | e ] eqn:Er.
  - rewrite (into_vec_run _ _ _ _ Er). unfold npy_data in Er. cbn [nf_header nf_src] in *. destruct (h_pickled h); [ discriminate | ].
    destruct (reader c t (h_dtype h)) as [ rd | ]; [ | discriminate ]. cbn [dbind] in Er. injection Er as <-. cbn [nr_type].
    rewrite run_cursor_bind. destruct (run_cursor _ src') as ([ vs | e | ], src''); cbn [bind]; auto. apply run_cursor_ret.
  - unfold npy_into_vec. rewrite Er. unfold npy_data in Er. cbn [nf_header nf_src] in *. destruct (h_pickled h); [ injection Er as <-; cbn [bind]; apply run_cursor_err | ].
    destruct (reader c t (h_dtype h)) as [ rd | ]; [ discriminate | ]. cbn [dbind] in Er. injection Er as <-. cbn [bind]. apply run_cursor_err.
Qed.

(** Chunks arriving from anywhere and a seekable source with the same bytes ahead. *)
Lemma sched_same_as_file c t s src : live s -> sched_bytes s = cur_rest src ->
  fst (run_sched (into_vec_prog c t) s) =
  match npy_new c src with
  | (Ok f, _) => let* vs := fst (npy_into_vec c t f) in Ok (nf_header f, vs)
  | (Err e, _) => Err e
  | (Panic, _) => Panic
  end.
Proof.
  intros Hs Hb. destruct (run_sched_run (into_vec_prog c t) s Hs) as (-> & _ & _). rewrite Hb.
  transitivity (fst (run_cursor (into_vec_prog c t) src)); [ unfold run_cursor; now destruct (run _ _) | ].
  rewrite prog_same. destruct (npy_new c src) as ([ f | e | ], src'); auto. now destruct (npy_into_vec c t f).
Qed.

Lemma arrays_prog c : forall ts src, run_cursor (read_stream c ts) src = read_arrays c ts src.
Proof.
  induction ts as [ | t ts IH ]; intros src; cbn [read_stream read_arrays]; [ apply run_cursor_ret | ].
  rewrite run_cursor_bind, prog_same. destruct (npy_new c src) as ([ f | e | ], src'); auto.
  destruct (npy_into_vec c t f) as ([ vs | e | ], src''); cbn [bind]; auto.
  rewrite run_cursor_bind, IH. destruct (read_arrays c ts src'') as ([ l | e | ], s3); auto. apply run_cursor_ret.
Qed.

(** * Writing *)
Lemma array_file_reads c m t d o shape vs file payload rest : wf_dtype d -> strings_fit (c_usize_max c) d -> Forall (has_type t) vs ->
  accepts m Writing t d -> accepts (c_usize_max c) Reading t d -> sizes_fit (c_usize_max c) d -> count shape = lenN vs ->
  encodings t d vs payload -> file_with d o shape file payload ->
  exists h, run (into_vec_prog c t) (file ++ rest) = (Ok (h, map (read_back t d) vs), rest) /\ h_dtype h = d /\ h_shape h = shape /\ h_order h = o.
Proof.
  intros Hwf Hsf Hvs Ha Hr Hsz Hcnt He Hf. pose proof (accepts_no_object _ _ _ _ Ha) as Hno.
  assert (Hnb : exists n, num_bytes c d = Some n) by (exists (size d); apply num_bytes_exact; auto).
  destruct (Hf c rest Hnb) as (h & Hrun & Hd & Hs & Ho & Hn). exists h. split; [ | auto ].
  unfold into_vec_prog. rewrite run_bind, Hrun. cbn [then_]. rewrite Hd.
  assert (Hfp : h_pickled h = false).
  { destruct (npy_new c {| cur_data := file ++ rest; cur_pos := 0 |}) as (x, y) eqn:En. pose proof En as En'.
    unfold npy_new, run_cursor, cur_rest in En. cbn [cur_data cur_pos] in En. rewrite dropN_0, Hrun in En. apply pair_inj in En as (<- & <-).
    apply npy_new_inv in En' as (_ & _ & d' & sh' & o' & Hp'). cbn [nf_header] in Hp'. apply from_parts_ok in Hp' as (E & _ & _ & _ & _ & Hk & _). rewrite Hk.
    destruct (uses_pickled_array d') eqn:Eu; [ | reflexivity ]. apply pickled_exact in Eu. congruence. }
  rewrite Hfp. apply reader_accepts in Hr as (rd & Hrd). rewrite Hrd, Hn, Hcnt, run_bind.
  replace (N.to_nat (lenN vs)) with (List.length vs) by (unfold lenN; lia).
  rewrite (replicate_written c t d rd m vs Hwf Hsf Hrd Ha Hvs payload _ He). reflexivity.
Qed.

Lemma arrays_written c c' : forall l s s', Forall array_ok l -> Forall (array_readable c') l -> sk_fuel s = None -> write_arrays c l s = (Ok tt, s') ->
  exists file, sk_pos s' = sk_pos s + lenN file /\ sk_fuel s' = None
  /\ (l <> [] \/ sk_pos s <= lenN (sk_data s) -> placed (sk_data s) (sk_pos s) file (sk_data s'))
  /\ dropN (sk_pos s) (sk_data s') = file ++ dropN (sk_pos s') (sk_data s)
  /\ forall rest, exists xs, run (read_stream c' (map a_type l)) (file ++ rest) = (Ok xs, rest) /\ Forall2 array_read l xs.
Proof.
  induction l as [ | a l IH ]; intros s s' Hok Hrd Hf H; cbn [write_arrays map read_stream] in *.
  - apply pair_inj in H as (_ & <-). exists []. rewrite lenN_nil, N.add_0_r. split; [ auto | split; [ auto | ] ]. split.
    { intros [ [] | Hp ]; [ reflexivity | ]. symmetry. now apply overwrite_empty. }
    split; [ reflexivity | ]. intros rest. exists []. split; [ reflexivity | constructor ].
  - apply Forall_cons_iff in Hok as ((Hwf & Hvs & Hn & Hh) & Hok). apply Forall_cons_iff in Hrd as ((Hr & Hz & Hsf) & Hrd).
    destruct (write_file c (a_type a) (a_dtype a) (a_order a) (a_hint a) (output_kind (a_hint a)) (a_vals a) s) as ([ [] | e | ], s1) eqn:E; try discriminate.
    pose proof (write_file_ok _ _ _ _ _ _ _ _ Hwf Hvs Hn Hh E) as (shape & hdr & payload & Hs & He & Hp & Hpos & Hw). destruct (Hpos Hf) as (Hp1 & Hf1).
    assert (Hacc : accepts (c_usize_max c) Writing (a_type a) (a_dtype a)).
    { unfold write_file, sbind in E. destruct (begin_ c (a_type a) (a_dtype a) (a_order a) (a_hint a) (output_kind (a_hint a)) s) as ([ w | e | ], s2) eqn:Eb; try discriminate.
      apply begin_ok_inv in Eb as (_ & dict & pad & hdr' & props & info & tw & _ & _ & _ & Hw' & _). apply writer_accepts. eauto. }
    destruct (IH s1 s' Hok Hrd Hf1 H) as (file & Hp2 & Hf2 & Hpl & Hdr & Hread). set (f1 := hdr ++ payload) in *.
    assert (Hplaced : placed (sk_data s) (sk_pos s) (f1 ++ file) (sk_data s')).
    { change (sk_data s' = overwrite (sk_data s) (sk_pos s) (f1 ++ file)). rewrite overwrite_app. rewrite <- Hp1.
      change (sk_data s1 = overwrite (sk_data s) (sk_pos s) f1) in Hp. rewrite <- Hp. apply Hpl. right. rewrite Hp, overwrite_length, Hp1. lia. }
    exists (f1 ++ file). split; [ rewrite lenN_app; lia | split; [ auto | split; [ auto | split ] ] ].
    { rewrite (placed_rest _ _ _ _ Hplaced). f_equal. f_equal. rewrite lenN_app. lia. }
    intros rest. destruct (Hread rest) as (xs & Hx & Hxs).
    destruct (array_file_reads c' _ (a_type a) (a_dtype a) (a_order a) shape (a_vals a) f1 payload (file ++ rest) Hwf Hsf Hvs Hacc Hr Hz (final_count _ _ _ _ Hs) He Hw)
      as (h & Hrun & Hd & Hsh & Ho).
    exists ((h, map (read_back (a_type a) (a_dtype a)) (a_vals a)) :: xs). split.
    + rewrite <- app_assoc, run_bind, Hrun. cbn [then_]. rewrite run_bind, Hx. reflexivity.
    + constructor; auto. unfold array_read. cbn [fst snd]. split; [ auto | split; [ auto | split; [ congruence | split; [ reflexivity | ] ] ] ].
      intros Hsv. now apply (read_back_all c').
Qed.

Lemma arrays_round_trip c c' l s s' : Forall array_ok l -> Forall (array_readable c') l -> sk_fuel s = None -> write_arrays c l s = (Ok tt, s') ->
  exists xs, Forall2 array_read l xs
  /\ read_arrays c' (map a_type l) {| cur_data := sk_data s'; cur_pos := sk_pos s |} = (Ok xs, {| cur_data := sk_data s'; cur_pos := sk_pos s' |})
  /\ forall sched, live sched -> sched_bytes sched = dropN (sk_pos s) (sk_data s') ->
     fst (run_sched (read_stream c' (map a_type l)) sched) = Ok xs
     /\ sched_bytes (snd (run_sched (read_stream c' (map a_type l)) sched)) = dropN (sk_pos s') (sk_data s').
Proof.
  intros Hok Hrd Hf H. destruct (arrays_written c c' l s s' Hok Hrd Hf H) as (file & Hp & _ & _ & Hd & Hr).
  destruct (Hr (dropN (sk_pos s') (sk_data s))) as (xs & Hx & Hxs).
  assert (Hrest : dropN (sk_pos s') (sk_data s') = dropN (sk_pos s') (sk_data s)).
  { rewrite Hp at 1. rewrite N.add_comm, <- dropN_dropN, Hd. apply dropN_app. reflexivity. }
  exists xs. split; [ auto | split ].
  - rewrite <- arrays_prog. unfold run_cursor, cur_rest. cbn [cur_data cur_pos]. rewrite Hd, Hx. do 2 f_equal. rewrite lenN_app. lia.
  - intros sched Hl Hb. destruct (run_sched_run (read_stream c' (map a_type l)) sched Hl) as (H1 & H2 & _).
    rewrite H1, H2, Hb, Hd, Hx. auto.
Qed.

Lemma arrays_place c c' l s s' : Forall array_ok l -> Forall (array_readable c') l -> sk_fuel s = None -> sk_pos s <= lenN (sk_data s) -> write_arrays c l s = (Ok tt, s') ->
  exists file, placed (sk_data s) (sk_pos s) file (sk_data s') /\ sk_pos s' = sk_pos s + lenN file.
Proof.
  intros Hok Hrd Hf Hps H. destruct (arrays_written c c' l s s' Hok Hrd Hf H) as (file & Hp & _ & Hpl & _). exists file. auto.
Qed.

Lemma arrays_succeed c : forall l s, Forall array_ok l ->
  Forall (fun a => top_level (a_dtype a) /\ strings_fit (c_usize_max c) (a_dtype a) /\ accepts (c_usize_max c) Writing (a_type a) (a_dtype a)
    /\ Forall (fun v => exists b, encode (a_type a) (a_dtype a) v = Some b) (a_vals a) /\ short_header (a_dtype a) (a_hint a)
    /\ final_shape (a_hint a) (a_order a) (lenN (a_vals a)) <> None) l -> sk_fuel s = None ->
  exists s', write_arrays c l s = (Ok tt, s').
Proof.
  induction l as [ | a l IH ]; intros s Hok Hall Hf; cbn [write_arrays]; [ eauto | ].
  apply Forall_cons_iff in Hok as ((Hwf & Hvs & Hn & Hh) & Hok). apply Forall_cons_iff in Hall as ((Ht & Hsf & Ha & He & Hsh & Hfs) & Hall).
  destruct (writing_succeeds c (a_type a) (a_dtype a) (a_order a) (a_hint a) (a_vals a) s Hwf Hsf Ht Ha Hvs He Hn Hh Hsh Hf) as (r & s1 & E & Hr).
  rewrite E. destruct (final_shape _ _ _) as [ shape | ]; [ subst r | congruence ].
  destruct (write_file_ok _ _ _ _ _ _ _ _ Hwf Hvs Hn Hh E) as (? & ? & ? & _ & _ & _ & Hpos & _). destruct (Hpos Hf) as (_ & Hf1).
  now apply IH.
Qed.

(** * What is left of the stream after opening *)
Lemma inner_at_data c src f src' : npy_new c src = (Ok f, src') ->
  npy_into_inner f = src' /\ cur_data (npy_into_inner f) = cur_data src
  /\ exists hdr, cur_rest src = hdr ++ cur_rest (npy_into_inner f) /\ cur_pos (npy_into_inner f) = cur_pos src + lenN hdr
     /\ forall more, run (read_and_interpret c) (hdr ++ more) = (Ok (nf_header f), more).
Proof.
  intros H. pose proof (opened_data _ _ _ _ H) as Hd. apply npy_new_inv in H as (<- & H & _). unfold npy_into_inner. split; [ reflexivity | split; [ exact Hd | ] ].
  unfold run_cursor in H. destruct (run (read_and_interpret c) (cur_rest src)) as (r, rest) eqn:E. apply pair_inj in H as (-> & Hc).
  pose proof (run_suffix _ _ _ _ E) as (hdr & Hh). exists hdr.
  assert (Hcr : cur_rest (nf_src f) = rest).
  { rewrite <- Hc. unfold cur_rest at 1. cbn [cur_data cur_pos]. rewrite N.add_comm, <- dropN_dropN. fold (cur_rest src). rewrite Hh, lenN_app, N.add_sub. now apply dropN_app. }
  rewrite Hcr. split; [ auto | split ].
  - rewrite <- Hc. cbn [cur_pos]. rewrite Hh, lenN_app. lia.
  - intros more. rewrite Hh in E. clear - E.
    assert (G : forall A (p : rprog A) a b x, run p (a ++ b) = (Ok x, b) -> forall m, run p (a ++ m) = (Ok x, m)).
    { clear. intros A p. induction p as [ a0 | e | | n eof k IH ]; intros a b x H m; cbn [run] in *; try discriminate.
      - apply pair_inj in H as (Hx & Hab). apply (f_equal lenN) in Hab. rewrite lenN_app in Hab. destruct a; [ cbn [app]; now rewrite Hx | rewrite lenN_cons in Hab; lia ].
      - destruct (N.leb_spec n (lenN (a ++ b))) as [ Hn | Hn ]; [ | discriminate ].
        assert (Hna : n <= lenN a).
        { apply run_suffix in H as (u & Hu). apply (f_equal lenN) in Hu. rewrite lenN_app, lenN_dropN, lenN_app in Hu. rewrite lenN_app in Hn. lia. }
        rewrite lenN_app. replace (n <=? lenN a + lenN m) with true by lia.
        rewrite takeN_app_gen, dropN_app_gen in *. replace (n - lenN a) with 0 in * by lia. rewrite takeN_0, app_nil_r, dropN_0 in *. now apply (IH _ _ b). }
    eapply G; eauto.
Qed.
