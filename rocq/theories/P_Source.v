(** Sources that fail. *)
From Verif Require Import M_Base M_Text M_TypeStr M_PyLit M_IO M_Header M_Read M_Serialize M_DTypeErr M_NpyReader M_Source.
From Verif Require Import S_TypeStr S_DType S_Shape S_Header S_Elem S_Strings S_Reader S_Source
  P_Base P_Text P_IO P_Elem P_ReadOne P_ElemT P_Reader.
Require Import ZifyBool ZifyNat ZifyN.
Open Scope N_scope.

Lemma fill_quiet s more : live s -> forall want acc,
  (want <= lenN (sched_bytes s) -> exists s', fill want (delivers s more) acc = (Got (acc ++ takeN want (sched_bytes s)), delivers s' more)
     /\ sched_bytes s' = dropN want (sched_bytes s) /\ live s')
  /\ (lenN (sched_bytes s) < want -> fill want (delivers s more) acc = fill (want - lenN (sched_bytes s)) more (acc ++ sched_bytes s)).
Proof.
  unfold delivers. induction 1 as [ | x s Hx Hs IH ]; intros want acc.
  - cbn [map app sched_bytes]. change (lenN []) with 0. split.
    + intros H. assert (want = 0) as -> by lia. exists []. rewrite takeN_0, app_nil_r. split; [ destruct more; reflexivity | ]. split; [ reflexivity | constructor ].
    + intros H. rewrite N.sub_0_r, app_nil_r. reflexivity.
  - destruct (N.eqb_spec want 0) as [ -> | Hw ].
    { split; [ | intros H; lia ]. intros _. exists (x :: s). rewrite takeN_0, app_nil_r, dropN_0. split; [ destruct x; reflexivity | ]. split; [ reflexivity | now constructor ]. }
    destruct x as [ c | ].
    + destruct c as [ | b c ]; [ congruence | ]. remember (b :: c) as ch eqn:Ech.
      assert (E : fill want (Chunk ch :: map (fun x => match x with Some bs => Chunk bs | None => Interrupted end) s ++ more) acc
        = if want <? lenN ch then (Got (acc ++ takeN want ch), Chunk (dropN want ch) :: map (fun x => match x with Some bs => Chunk bs | None => Interrupted end) s ++ more)
          else fill (want - lenN ch) (map (fun x => match x with Some bs => Chunk bs | None => Interrupted end) s ++ more) (acc ++ ch)).
      { cbn [fill]. destruct (N.eqb_spec want 0); [ lia | ]. rewrite Ech. reflexivity. }
      cbn [map app sched_bytes]. rewrite E. rewrite lenN_app. destruct (N.ltb_spec want (lenN ch)).
      * split; [ | lia ]. intros _. exists (Some (dropN want ch) :: s). rewrite takeN_app_gen, dropN_app_gen. replace (want - lenN ch) with 0 by lia. rewrite takeN_0, app_nil_r.
        split; [ reflexivity | ]. split; [ reflexivity | ]. constructor; auto. intros [= E']. apply (f_equal lenN) in E'. rewrite lenN_dropN in E'. cbn in E'. lia.
      * destruct (IH (want - lenN ch) (acc ++ ch)) as (I1 & I2). split.
        -- intros H1. destruct I1 as (s' & F & B & L); [ lia | ]. exists s'. rewrite takeN_app_gen, dropN_app_gen, (takeN_all want ch), (dropN_all want ch) by lia.
           rewrite app_assoc. split; [ exact F | ]. split; [ exact B | exact L ].
        -- intros H1. rewrite I2 by lia. rewrite app_assoc. f_equal. lia.
    + assert (E : fill want (Interrupted :: map (fun x => match x with Some bs => Chunk bs | None => Interrupted end) s ++ more) acc
        = fill want (map (fun x => match x with Some bs => Chunk bs | None => Interrupted end) s ++ more) acc) by (cbn [fill]; destruct (N.eqb_spec want 0); [ lia | reflexivity ]).
      cbn [map app sched_bytes]. rewrite E. apply IH.
Qed.

Lemma fill_fault s e post want : live s -> lenN (sched_bytes s) < want -> forall acc, fill want (delivers s (Fault e :: post)) acc = (Broken e, post).
Proof.
  intros Hl H acc. rewrite (proj2 (fill_quiet s (Fault e :: post) Hl want acc) H). cbn [fill]. destruct (N.eqb_spec (want - lenN (sched_bytes s)) 0); [ lia | reflexivity ].
Qed.

Lemma run_within {A} n eof (k : bytes -> rprog A) d : n <= lenN d -> forall more, run (RRead n eof k) (d ++ more) = run (k (takeN n d)) (dropN n d ++ more).
Proof.
  intros H more. cbn [run]. rewrite lenN_app. replace (n <=? lenN d + lenN more) with true by lia. rewrite takeN_app_gen, dropN_app_gen. replace (n - lenN d) with 0 by lia.
  now rewrite takeN_0, app_nil_r, dropN_0.
Qed.
(** Either the program ends within what is delivered, or the fault is passed on. *)
Lemma source_cases {A} (p : rprog A) : forall s, live s -> forall e post,
  (exists r rest s', ends_within p (sched_bytes s) r rest /\ run_source p (delivers s (Fault e :: post)) = (Done r, delivers s' (Fault e :: post)) /\ sched_bytes s' = rest /\ live s')
  \/ ((forall r rest, ~ ends_within p (sched_bytes s) r rest) /\ run_source p (delivers s (Fault e :: post)) = (Failed e, post)).
Proof.
  induction p as [ a | er | | n eof k IH ]; intros s Hl e post; cbn [run_source].
  - left. exists (Ok a), (sched_bytes s), s. repeat split; auto.
  - left. exists (Err er), (sched_bytes s), s. repeat split; auto.
  - left. exists Panic, (sched_bytes s), s. repeat split; auto.
  - destruct (N.le_gt_cases n (lenN (sched_bytes s))) as [ Hn | Hn ].
    + destruct (proj1 (fill_quiet s (Fault e :: post) Hl n []) Hn) as (s1 & F & B & L). rewrite F. cbn [app].
      destruct (IH (takeN n (sched_bytes s)) s1 L e post) as [ (r & rest & s' & H1 & H2 & H3 & H4) | (H1 & H2) ].
      * left. exists r, rest, s'. split; [ | auto ]. intros more. rewrite run_within by exact Hn. rewrite <- B. apply H1.
      * right. split; [ | exact H2 ]. intros r rest H. apply (H1 r rest). intros more. rewrite B, <- (H more). symmetry. now apply run_within.
    + right. rewrite (fill_fault s e post n Hl Hn). split; [ | reflexivity ]. intros r rest H.
      pose proof (H (repeatN 0 n)) as H1. cbn [run] in H1. rewrite lenN_app, lenN_repeatN in H1. replace (n <=? lenN (sched_bytes s) + n) with true in H1 by lia.
      apply run_suffix in H1 as (used & H1). apply (f_equal lenN) in H1. rewrite lenN_dropN, !lenN_app, lenN_repeatN in H1. lia.
Qed.
Lemma ends_unique {A} (p : rprog A) d r1 rest1 r2 rest2 : ends_within p d r1 rest1 -> ends_within p d r2 rest2 -> r1 = r2 /\ rest1 = rest2.
Proof. intros H1 H2. specialize (H1 []). specialize (H2 []). rewrite !app_nil_r in *. rewrite H1 in H2. now apply pair_inj in H2. Qed.
Lemma source_exact {A} (p : rprog A) s e post : live s ->
  (forall r rest, ends_within p (sched_bytes s) r rest ->
     exists s', run_source p (delivers s (Fault e :: post)) = (Done r, delivers s' (Fault e :: post)) /\ sched_bytes s' = rest /\ live s')
  /\ ((forall r rest, ~ ends_within p (sched_bytes s) r rest) -> run_source p (delivers s (Fault e :: post)) = (Failed e, post)).
Proof.
  intros Hl. destruct (source_cases p s Hl e post) as [ (r & rest & s' & H1 & H2 & H3 & H4) | (H1 & H2) ]; split.
  - intros r0 rest0 H. destruct (ends_unique p _ _ _ _ _ H1 H) as (<- & <-). eauto.
  - intros H. now destruct (H r rest).
  - intros r rest H. now destruct (H1 r rest).
  - auto.
Qed.
(** A run that succeeds ends where it ended. *)
Lemma ok_within {A} (p : rprog A) used rest v : run p (used ++ rest) = (Ok v, rest) -> ends_within p used (Ok v) [].
Proof.
  revert used. induction p as [ a | er | | n eof k IH ]; intros used H; cbn [run] in H.
  - apply pair_inj in H as (H & E). assert (used = []) as ->. { apply (f_equal lenN) in E. rewrite lenN_app in E. destruct used; [ reflexivity | rewrite lenN_cons in E; lia ]. }
    intros more. cbn [run app]. now rewrite H.
  - discriminate H.
  - discriminate H.
  - destruct (N.leb_spec n (lenN (used ++ rest))) as [ Hn | Hn ]; [ | discriminate H ].
    destruct (run_suffix _ _ _ _ H) as (u & Hu). pose proof (f_equal lenN Hu) as L. rewrite lenN_dropN, !lenN_app in L.  rewrite lenN_app in Hn.
    assert (n <= lenN used) by lia. intros more. rewrite run_within by assumption. apply (IH (takeN n used)).
    revert H. rewrite takeN_app_gen, dropN_app_gen. replace (n - lenN used) with 0 by lia. now rewrite takeN_0, app_nil_r, dropN_0.
Qed.
Lemma within_ok {A} (p : rprog A) file data more rest v : run p file = (Ok v, rest) -> file = data ++ more ->
  (lenN file - lenN rest <= lenN data -> exists rest', ends_within p data (Ok v) rest' /\ rest = rest' ++ more)
  /\ (lenN data < lenN file - lenN rest -> forall r rest', ~ ends_within p data r rest').
Proof.
  intros H E. destruct (run_suffix _ _ _ _ H) as (used & Hu). split.
  - intros L. assert (lenN used <= lenN data) by (rewrite Hu, lenN_app in L; lia). rewrite Hu in E. symmetry in E. apply split_at in E as (w & -> & ->); [ | assumption ].
    exists w. split; [ | reflexivity ]. intros m. rewrite <- app_assoc. rewrite Hu in H. apply ok_within in H. now rewrite (H (w ++ m)).
  - intros L r rest' N. pose proof (N more) as N'. rewrite <- E, H in N'. apply pair_inj in N' as (<- & E'). rewrite E, E', !lenN_app in L. lia.
Qed.

(** Whatever follows, a program that ends within what is delivered ends there. *)
Lemma source_within {A} (p : rprog A) more : forall s r rest, live s -> ends_within p (sched_bytes s) r rest ->
  exists s', run_source p (delivers s more) = (Done r, delivers s' more) /\ sched_bytes s' = rest /\ live s'.
Proof.
  induction p as [ a | er | | n eof k IH ]; intros s r rest Hl H; cbn [run_source].
  1-3: specialize (H []); rewrite !app_nil_r in H; cbn [run] in H; apply pair_inj in H as (<- & <-); eauto.
  assert (Hn : n <= lenN (sched_bytes s)).
  { destruct (N.le_gt_cases n (lenN (sched_bytes s))) as [ Hn | Hn ]; [ exact Hn | exfalso ].
    pose proof (H (repeatN 0 n)) as H1. cbn [run] in H1. rewrite lenN_app, lenN_repeatN in H1. replace (n <=? lenN (sched_bytes s) + n) with true in H1 by lia.
    apply run_suffix in H1 as (used & H1). apply (f_equal lenN) in H1. rewrite lenN_dropN, !lenN_app, lenN_repeatN in H1. lia. }
  destruct (proj1 (fill_quiet s more Hl n []) Hn) as (s1 & F & B & L). rewrite F. cbn [app]. apply IH; [ exact L | ].
  rewrite B. intros m. rewrite <- (H m). symmetry. now apply run_within.
Qed.

(** Without errors. *)
Lemma fill_sched s : forall want acc,
  fill want (delivers s []) acc = (match fst (read_exact_loop want s acc) with Some bs => Got bs | None => Ended end, delivers (snd (read_exact_loop want s acc)) []).
Proof.
  unfold delivers. induction s as [ | [ c | ] s IH ]; intros want acc; cbn [map app fill read_exact_loop]; destruct (want =? 0); try reflexivity.
  - destruct c as [ | b c ]; [ reflexivity | ]. destruct (want <? lenN (b :: c)); [ reflexivity | apply IH ].
  - apply IH.
Qed.
Lemma source_sched {A} (p : rprog A) : forall s, run_source p (delivers s []) = (Done (fst (run_sched p s)), delivers (snd (run_sched p s)) []).
Proof.
  induction p as [ a | er | | n eof k IH ]; intros s; cbn [run_source run_sched fst snd]; try reflexivity.
  rewrite fill_sched. destruct (read_exact_loop n s []) as ([ bs | ], s'); cbn [fst snd]; [ apply IH | reflexivity ].
Qed.

(** * Iterating *)
Lemma nexts_items c t d hd rd more : wf_dtype d -> strings_fit (c_usize_max c) d -> reader c t d = DOk rd -> forall blocks vs, stored t d blocks (map Some vs) ->
  forall s tail i, live s -> sched_bytes s = List.concat blocks ++ tail -> i + lenN vs <= h_n_records hd ->
  exists s', live s' /\ sched_bytes s' = tail /\
  forall n, sr_nexts c (List.length vs + n) {| sr_header := hd; sr_type := rd; sr_src := delivers s more; sr_index := i |}
    = let '(xs, r') := sr_nexts c n {| sr_header := hd; sr_type := rd; sr_src := delivers s' more; sr_index := i + lenN vs |} in (map item vs ++ xs, r').
Proof.
  intros Hw Hf Hr blocks vs. revert blocks. induction vs as [ | v vs IH ]; intros blocks Hs s tail i Hl Hb Hi.
  - inversion Hs; subst. exists s. split; [ exact Hl | ]. split; [ exact Hb | ]. intros n. cbn [List.length Nat.add map app]. change (lenN []) with 0. rewrite N.add_0_r. destruct (sr_nexts c n _). reflexivity.
  - inversion Hs as [ | b x blocks' items' (B1 & B2 & B3) Hs' ]; subst. cbn [List.concat] in Hb. rewrite <- app_assoc in Hb. rewrite lenN_cons in Hi.
    pose proof (reads_all c t d Hw rd Hr b [] B1 B2) as [ (K & _) | K ]; [ contradiction | ]. rewrite B3 in K.
    assert (W : ends_within (read_one c rd) (sched_bytes s) (Ok v) (List.concat blocks' ++ tail)).
    { rewrite Hb. intros m. rewrite <- app_assoc. apply ok_within in K. now rewrite (K ((List.concat blocks' ++ tail) ++ m)). }
    destruct (source_within (read_one c rd) more s _ _ Hl W) as (s1 & R & Hb1 & Hl1).
    destruct (IH blocks' Hs' s1 tail (i + 1) Hl1 Hb1 ltac:(lia)) as (s' & L' & T' & G). exists s'. split; [ exact L' | ]. split; [ exact T' | ]. intros n.
    cbn [List.length Nat.add sr_nexts]. unfold sr_next at 1. cbn [sr_index sr_header sr_src sr_type]. replace (i <? h_n_records hd) with true by lia. rewrite R.
    rewrite G. replace (i + 1 + lenN vs) with (i + lenN (v :: vs)) by (rewrite lenN_cons; lia). destruct (sr_nexts c n _) as (xs, r'). reflexivity.
Qed.
(** The call during which the source fails. *)
Lemma next_fault c t d hd rd more e v b s i : wf_dtype d -> strings_fit (c_usize_max c) d -> reader c t d = DOk rd -> live s -> i < h_n_records hd ->
  lenN b = size d -> bytes_ok b -> decode t d b = Some v -> (exists missing, b = sched_bytes s ++ missing /\ missing <> []) ->
  sr_next c {| sr_header := hd; sr_type := rd; sr_src := delivers s (Fault e :: more); sr_index := i |}
  = (Some (Failed e), {| sr_header := hd; sr_type := rd; sr_src := more; sr_index := i + 1 |}).
Proof.
  intros Hw Hf Hr Hl Hi B1 B2 B3 (m & E & Hm). unfold sr_next. cbn [sr_index sr_header sr_src sr_type]. replace (i <? h_n_records hd) with true by lia.
  pose proof (reads_all c t d Hw rd Hr b [] B1 B2) as [ (K & _) | K ]; [ contradiction | ]. rewrite B3, app_nil_r in K.
  rewrite (proj2 (source_exact (read_one c rd) s e more Hl)); [ reflexivity | ].
  apply (within_ok (read_one c rd) b (sched_bytes s) m [] v K E). rewrite E, lenN_app. change (lenN []) with 0. destruct m; [ contradiction | ]. rewrite lenN_cons. lia.
Qed.

Lemma stored_cut t d : forall blocks items, stored t d blocks items -> forall j, stored t d (firstn j blocks) (firstn j items) /\ stored t d (skipn j blocks) (skipn j items).
Proof.
  induction 1 as [ | b v blocks items Hb H IH ]; intros [ | j ]; cbn [firstn skipn]; split; try constructor; auto; try apply IH.
Qed.
Definition at_source (hd : nheader) (rd : treader) (s : source) (i : N) : src_reader := {| sr_header := hd; sr_type := rd; sr_src := s; sr_index := i |}.
Lemma iterate_fault c t d hd rd blocks vs s e post k :
  wf_dtype d -> strings_fit (c_usize_max c) d -> reader c t d = DOk rd -> stored t d blocks (map Some vs) -> lenN vs <= h_n_records hd ->
  live s -> sched_bytes s = takeN k (List.concat blocks) -> k < lenN (List.concat blocks) ->
  forall m, sr_nexts c (N.to_nat (k / size d) + S m) (at_source hd rd (delivers s (Fault e :: post)) 0)
    = let '(xs, r') := sr_nexts c m (at_source hd rd post (k / size d + 1)) in (map item (firstn (N.to_nat (k / size d)) vs) ++ Some (Failed e) :: xs, r').
Proof.
  intros Hw Hf Hr Hs Hn Hl Hb Hk m. destruct (stored_len t d _ _ Hs) as (L & _). unfold lenN in L at 2. rewrite map_length in L. fold (lenN vs) in L.
  set (z := size d) in *. assert (Hz : 0 < z) by nia. set (j := k / z).
  pose proof (N.div_mod k z ltac:(lia)) as D. pose proof (N.mod_lt k z ltac:(lia)) as M. fold j in D. assert (Hj : j < lenN vs) by nia.
  destruct (nth_error vs (N.to_nat j)) as [ v | ] eqn:Ev; [ | apply nth_error_None in Ev; unfold lenN in Hj; lia ].
  destruct (stored_nth t d _ _ Hs (N.to_nat j) (Some v)) as (b & B1 & B2 & B3 & B4 & B5); [ now apply map_nth_error | ]. fold z in B1, B5.
  rewrite N2Nat.id in B5.
  assert (Hb' : sched_bytes s = List.concat (firstn (N.to_nat j) blocks) ++ takeN (k mod z) b).
  { rewrite Hb, B4, takeN_app_gen, B5, (takeN_all k) by (rewrite B5; lia). f_equal. rewrite takeN_app_gen, B1. replace (k - j * z) with (k mod z) by lia.
    replace (k mod z - z) with 0 by lia. now rewrite takeN_0, app_nil_r. }
  destruct (stored_cut t d _ _ Hs (N.to_nat j)) as (S1 & _). rewrite firstn_map in S1.
  assert (Lf : List.length (firstn (N.to_nat j) vs) = N.to_nat j) by (rewrite firstn_length; unfold lenN in Hj; lia).
  assert (Ln : lenN (firstn (N.to_nat j) vs) = j) by (unfold lenN; lia).
  destruct (nexts_items c t d hd rd (Fault e :: post) Hw Hf Hr _ _ S1 s (takeN (k mod z) b) 0 Hl Hb' ltac:(lia)) as (s' & L' & T' & G).
  specialize (G (S m)). rewrite Lf in G. unfold at_source. rewrite G. cbn [sr_nexts].
  rewrite (next_fault c t d hd rd post e v b s' (0 + lenN (firstn (N.to_nat j) vs)) Hw Hf Hr L'); auto; [ | lia | ].
  - rewrite Ln, N.add_0_l. destruct (sr_nexts c m _). reflexivity.
  - exists (dropN (k mod z) b). rewrite T', takeN_dropN. split; [ reflexivity | ]. intros E. apply (f_equal lenN) in E. rewrite lenN_dropN, B1 in E. change (lenN []) with 0 in E. lia.
Qed.

(** * Whole files *)
Lemma new_run c bs f src' : npy_new c {| cur_data := bs; cur_pos := 0 |} = (Ok f, src') -> run (read_and_interpret c) bs = (Ok (nf_header f), cur_rest (nf_src f)).
Proof.
  intros H. apply npy_new_inv in H as (Hs & H & _). unfold run_cursor in H. unfold cur_rest in H at 1. cbn [cur_data cur_pos] in H. rewrite dropN_0 in H.
  destruct (run (read_and_interpret c) bs) as (r & rest) eqn:E. apply pair_inj in H as (-> & H). f_equal. rewrite Hs, <- H. unfold cur_rest. cbn [cur_data cur_pos]. rewrite dropN_0.
  destruct (run_suffix _ _ _ _ E) as (u & ->). rewrite lenN_app. symmetry. apply dropN_app. lia.
Qed.
Lemma open_fault c bs f src' k e post s : npy_new c {| cur_data := bs; cur_pos := 0 |} = (Ok f, src') -> fails_after k bs e post s ->
  let h := lenN bs - lenN (cur_rest (nf_src f)) in
  (k < h -> open_source c s = (Failed e, post))
  /\ (h <= k -> exists s', open_source c s = (Done (Ok (nf_header f)), s') /\ fails_after (k - h) (cur_rest (nf_src f)) e post s').
Proof.
  intros Hn (pre & Hl & Hb & ->). cbn zeta. apply new_run in Hn. set (rest := cur_rest (nf_src f)) in *. destruct (run_suffix _ _ _ _ Hn) as (u & Hu).
  pose proof (f_equal lenN Hu) as L. rewrite lenN_app in L.
  assert (E : bs = sched_bytes pre ++ dropN k bs) by (rewrite Hb; symmetry; apply takeN_dropN). assert (Lp : lenN (sched_bytes pre) = N.min k (lenN bs)) by (rewrite Hb, lenN_takeN; lia).
  destruct (within_ok _ _ _ _ _ _ Hn E) as (I1 & I2). destruct (source_exact (read_and_interpret c) pre e post Hl) as (J1 & J2). split; intros H.
  - apply J2, I2. lia.
  - destruct I1 as (rest' & W & Er); [ lia | ]. destruct (J1 _ _ W) as (s' & R & B & L'). eexists. split; [ exact R | ]. exists s'. split; [ exact L' | ]. split; [ | reflexivity ].
    rewrite B. replace (takeN (k - (lenN bs - lenN rest)) rest) with (takeN (lenN rest') rest).
    + rewrite Er, takeN_app_gen, N.sub_diag, takeN_0, app_nil_r. symmetry. apply takeN_all. lia.
    + pose proof (f_equal lenN Er) as Lr. rewrite lenN_app, lenN_dropN in Lr. destruct (N.le_gt_cases k (lenN bs)) as [ Hk | Hk ]; [ f_equal; lia | ].
      rewrite !takeN_all; [ reflexivity | lia | lia ].
Qed.
Lemma data_fault c t bs f src' r k e post s (blocks : list bytes) vs more : bytes_ok bs -> strings_fit (c_usize_max c) (h_dtype (nf_header f)) ->
  npy_new c {| cur_data := bs; cur_pos := 0 |} = (Ok f, src') -> npy_data c t f = DOk r ->
  cur_rest (nf_src f) = List.concat blocks ++ more -> stored t (h_dtype (nf_header f)) blocks (map Some vs) -> lenN vs = h_n_records (nf_header f) ->
  let z := size (h_dtype (nf_header f)) in
  k < lenN vs * z -> fails_after k (cur_rest (nf_src f)) e post s ->
  exists q after, data_source c t (nf_header f) s = DOk q
  /\ after = {| sr_header := nf_header f; sr_type := sr_type q; sr_src := post; sr_index := k / z + 1 |}
  /\ forall m, sr_nexts c (N.to_nat (k / z) + S m) q = let '(xs, q') := sr_nexts c m after in (map item (firstn (N.to_nat (k / z)) vs) ++ Some (Failed e) :: xs, q').
Proof.
  intros Hb Hf Hn Hd Er Hs Hv z Hk (pre & Hl & Hp & ->). destruct (data_opened c t {| cur_data := bs; cur_pos := 0 |} f src' r Hb Hn Hd) as (rd & (Hw & _ & Hr & _) & _).
  destruct (stored_len _ _ _ _ Hs) as (L & _). unfold lenN in L at 2. rewrite map_length in L. fold (lenN vs) in L. fold z in L.
  unfold data_source, npy_data in *. destruct (h_pickled (nf_header f)); [ discriminate Hd | ]. rewrite Hr. eexists _, _. split; [ reflexivity | ]. split; [ reflexivity | ]. cbn [sr_type].
  apply (iterate_fault c t (h_dtype (nf_header f)) (nf_header f) rd blocks vs pre e post k Hw Hf Hr Hs); auto; [ lia | | lia ].
  rewrite Hp, Er, takeN_app_gen. replace (k - lenN (List.concat blocks)) with 0 by lia. now rewrite takeN_0, app_nil_r.
Qed.
Lemma vec_fault c t bs hd vs rest k e post s : run (into_vec_prog c t) bs = (Ok (hd, vs), rest) -> fails_after k bs e post s ->
  (k < lenN bs - lenN rest -> into_vec_source c t s = (Failed e, post))
  /\ (lenN bs - lenN rest <= k -> fst (into_vec_source c t s) = Done (Ok (hd, vs))).
Proof.
  intros Hn (pre & Hl & Hb & ->). destruct (run_suffix _ _ _ _ Hn) as (u & Hu).
  pose proof (f_equal lenN Hu) as L. rewrite lenN_app in L.
  assert (E : bs = sched_bytes pre ++ dropN k bs) by (rewrite Hb; symmetry; apply takeN_dropN). assert (Lp : lenN (sched_bytes pre) = N.min k (lenN bs)) by (rewrite Hb, lenN_takeN; lia).
  destruct (within_ok _ _ _ _ _ _ Hn E) as (I1 & I2). destruct (source_exact (into_vec_prog c t) pre e post Hl) as (J1 & J2). split; intros H.
  - apply J2, I2. lia.
  - destruct I1 as (rest' & W & _); [ lia | ]. destruct (J1 _ _ W) as (s' & R & _). unfold into_vec_source. now rewrite R.
Qed.

(** What later calls see. *)
Lemma on_fault c t bs f src' r k e post s (blocks : list bytes) vs more vs2 (blocks2 : list bytes) tail : bytes_ok bs -> strings_fit (c_usize_max c) (h_dtype (nf_header f)) ->
  npy_new c {| cur_data := bs; cur_pos := 0 |} = (Ok f, src') -> npy_data c t f = DOk r ->
  cur_rest (nf_src f) = List.concat blocks ++ more -> stored t (h_dtype (nf_header f)) blocks (map Some vs) -> lenN vs = h_n_records (nf_header f) ->
  let z := size (h_dtype (nf_header f)) in
  k < lenN vs * z -> fails_after k (cur_rest (nf_src f)) e post s -> gives (dropN k (cur_rest (nf_src f))) post ->
  dropN k (cur_rest (nf_src f)) = List.concat blocks2 ++ tail -> stored t (h_dtype (nf_header f)) blocks2 (map Some vs2) -> k / z + 1 + lenN vs2 <= lenN vs ->
  exists q, data_source c t (nf_header f) s = DOk q
  /\ fst (sr_nexts c (N.to_nat (k / z) + S (List.length vs2)) q) = map item (firstn (N.to_nat (k / z)) vs) ++ Some (Failed e) :: map item vs2.
Proof.
  intros Hb Hf Hn Hd Er Hs Hv z Hk Hfa (pre & Hl & Hp & ->) E2 Hs2 Hc.
  destruct (data_fault c t bs f src' r k e _ s blocks vs more Hb Hf Hn Hd Er Hs Hv Hk Hfa) as (q & after & Hq & -> & G). exists q. split; [ exact Hq | ].
  destruct (data_opened c t {| cur_data := bs; cur_pos := 0 |} f src' r Hb Hn Hd) as (rd & (Hw & _ & Hr & _) & _).
  assert (Et : sr_type q = rd). { unfold data_source in Hq. destruct (h_pickled (nf_header f)); [ discriminate Hq | ]. rewrite Hr in Hq. injection Hq as <-. reflexivity. }
  rewrite G, Et. rewrite E2 in Hp.
  destruct (nexts_items c t _ (nf_header f) rd [] Hw Hf Hr _ _ Hs2 pre tail (k / z + 1) Hl Hp ltac:(lia)) as (s' & _ & _ & G2). specialize (G2 O). rewrite Nat.add_0_r in G2.
  fold z. rewrite G2. cbn [sr_nexts fst]. now rewrite app_nil_r.
Qed.
Lemma boundary_fault c t bs f src' r j e post s (blocks : list bytes) vs more : bytes_ok bs -> strings_fit (c_usize_max c) (h_dtype (nf_header f)) ->
  npy_new c {| cur_data := bs; cur_pos := 0 |} = (Ok f, src') -> npy_data c t f = DOk r ->
  cur_rest (nf_src f) = List.concat blocks ++ more -> stored t (h_dtype (nf_header f)) blocks (map Some vs) -> lenN vs = h_n_records (nf_header f) ->
  let z := size (h_dtype (nf_header f)) in 0 < z ->
  j < lenN vs -> fails_after (j * z) (cur_rest (nf_src f)) e post s -> gives (dropN (j * z) (cur_rest (nf_src f))) post ->
  exists q, data_source c t (nf_header f) s = DOk q
  /\ fst (sr_nexts c (S (List.length vs)) q) = map item (firstn (N.to_nat j) vs) ++ Some (Failed e) :: map item (removelast (skipn (N.to_nat j) vs)) ++ [None].
Proof.
  intros Hb Hf Hn Hd Er Hs Hv z Hz Hj Hfa (pre & Hl & Hp & ->). assert (Hq0 : j * z / z = j) by (apply N.div_mul; lia).
  destruct (stored_len _ _ _ _ Hs) as (L & _). unfold lenN in L at 2. rewrite map_length in L. fold (lenN vs) in L. fold z in L.
  destruct (data_fault c t bs f src' r (j * z) e _ s blocks vs more Hb Hf Hn Hd Er Hs Hv ltac:(fold z; nia) Hfa) as (q & after & Hq & -> & G). exists q. split; [ exact Hq | ]. fold z in G. rewrite Hq0 in G.
  destruct (data_opened c t {| cur_data := bs; cur_pos := 0 |} f src' r Hb Hn Hd) as (rd & (Hw & _ & Hr & _) & _).
  assert (Et : sr_type q = rd). { unfold data_source in Hq. destruct (h_pickled (nf_header f)); [ discriminate Hq | ]. rewrite Hr in Hq. injection Hq as <-. reflexivity. }
  rewrite Et in G.
  destruct (stored_cut _ _ _ _ Hs (N.to_nat j)) as (S1 & S2). rewrite firstn_map in S1. rewrite skipn_map in S2.
  assert (E : dropN (j * z) (cur_rest (nf_src f)) = List.concat (skipn (N.to_nat j) blocks) ++ more).
  { rewrite Er. rewrite <- (firstn_skipn (N.to_nat j) blocks) at 1. rewrite concat_app, <- app_assoc. apply dropN_app. destruct (stored_len _ _ _ _ S1) as (L1 & _). fold z in L1. etransitivity; [ exact L1 | ]. unfold lenN. rewrite map_length, firstn_length. unfold lenN in Hj. nia. }
  assert (Lk : lenN (skipn (N.to_nat j) vs) = lenN vs - j) by (unfold lenN; rewrite skipn_length; lia).
  remember (skipn (N.to_nat j) vs) as ws eqn:Ews. destruct (exists_last (l := ws)) as (ws' & w & Ew). { intros ->. cbn in Lk. lia. }
  rewrite Ew in S2 |- *. rewrite removelast_last. rewrite map_app in S2. apply Forall2_app_inv_r in S2 as (bs1 & bs2 & S3 & S4 & Eb).
  assert (Lw : lenN ws' = lenN vs - j - 1) by (rewrite Ew in Lk; rewrite lenN_app in Lk; cbn in Lk; lia).
  destruct (nexts_items c t _ (nf_header f) rd [] Hw Hf Hr _ _ S3 pre (List.concat bs2 ++ more) (j + 1) Hl) as (s' & L' & T' & G2); [ rewrite Hp, E, Eb, concat_app, app_assoc; reflexivity | lia | ].
  specialize (G (List.length ws' + 1)%nat). replace (N.to_nat j + S (List.length ws' + 1))%nat with (S (List.length vs)) in G by (unfold lenN in *; lia).
  rewrite G. specialize (G2 1%nat). rewrite G2. cbn [sr_nexts]. unfold sr_next. cbn [sr_index sr_header]. replace (j + 1 + lenN ws' <? h_n_records (nf_header f)) with false by lia. reflexivity.
Qed.
(** However long the caller goes on. *)
Lemma nexts_count c n : forall q, lenN (filter is_item (fst (sr_nexts c n q))) <= h_n_records (sr_header q) - sr_index q.
Proof.
  induction n as [ | n IH ]; intros q; cbn [sr_nexts]; [ change (lenN (filter is_item (fst ([], q)))) with 0; lia | ].
  unfold sr_next. destruct (N.ltb_spec (sr_index q) (h_n_records (sr_header q))).
  - destruct (run_source (read_one c (sr_type q)) (sr_src q)) as (v, s'). match goal with |- context [ sr_nexts c n ?x ] => specialize (IH x) end. cbn [sr_header sr_index] in IH.
    destruct (sr_nexts c n _) as (xs, q'). cbn [fst filter] in *. destruct (is_item (Some v)); [ rewrite lenN_cons | ]; lia.
  - specialize (IH q). destruct (sr_nexts c n q) as (xs, q'). cbn [fst filter is_item] in *. exact IH.
Qed.
Lemma never_all c t bs f src' r k e post s (blocks : list bytes) vs more : bytes_ok bs -> strings_fit (c_usize_max c) (h_dtype (nf_header f)) ->
  npy_new c {| cur_data := bs; cur_pos := 0 |} = (Ok f, src') -> npy_data c t f = DOk r ->
  cur_rest (nf_src f) = List.concat blocks ++ more -> stored t (h_dtype (nf_header f)) blocks (map Some vs) -> lenN vs = h_n_records (nf_header f) ->
  k < lenN vs * size (h_dtype (nf_header f)) -> fails_after k (cur_rest (nf_src f)) e post s ->
  exists q, data_source c t (nf_header f) s = DOk q /\ forall m, lenN (filter is_item (fst (sr_nexts c m q))) < lenN vs.
Proof.
  intros Hb Hf Hn Hd Er Hs Hv Hk Hfa. destruct (data_fault c t bs f src' r k e post s blocks vs more Hb Hf Hn Hd Er Hs Hv Hk Hfa) as (q & after & Hq & -> & G). exists q. split; [ exact Hq | ].
  set (z := size (h_dtype (nf_header f))) in *. assert (Hz : 0 < z) by nia. pose proof (N.div_mod k z ltac:(lia)) as D. assert (Hj : k / z < lenN vs) by nia.
  assert (Mono : forall a b p, lenN (filter is_item (fst (sr_nexts c a p))) <= lenN (filter is_item (fst (sr_nexts c (a + b) p)))).
  { induction a as [ | a IH ]; intros b p; cbn [sr_nexts Nat.add]; [ change (lenN (filter is_item (fst ([], p)))) with 0; lia | ]. destruct (sr_next c p) as (x, p').
    specialize (IH b p'). destruct (sr_nexts c a p') as (xs, p1). destruct (sr_nexts c (a + b) p') as (ys, p2). cbn [fst filter] in *. destruct (is_item x); rewrite ?lenN_cons; lia. }
  intros m. pose proof (Mono m (N.to_nat (k / z) + 1)%nat q) as L. replace (m + (N.to_nat (k / z) + 1))%nat with (N.to_nat (k / z) + S m)%nat in L by lia. rewrite G in L.
  pose proof (nexts_count c m {| sr_header := nf_header f; sr_type := sr_type q; sr_src := post; sr_index := k / z + 1 |}) as C. cbn [sr_header sr_index] in C.
  destruct (sr_nexts c m {| sr_header := nf_header f; sr_type := sr_type q; sr_src := post; sr_index := k / z + 1 |}) as (xs, q'). cbn [fst] in *.
  rewrite filter_app in L. cbn [filter is_item] in L. rewrite lenN_app in L.
  assert (lenN (filter is_item (map item (firstn (N.to_nat (k / z)) vs))) <= k / z).
  { assert (F : forall l : list (option (outcome val)), lenN (filter is_item l) <= lenN l) by (induction l as [ | x l IH ]; cbn [filter]; [ lia | destruct (is_item x); rewrite ?lenN_cons; lia ]).
    etransitivity; [ apply F | ]. unfold lenN. rewrite map_length, firstn_length. lia. }
  lia.
Qed.
