(** A file that can fail: proofs. *)
From Verif Require Import M_Base M_Text M_TypeStr M_IO M_Header M_Read M_Serialize M_NpyReader M_Source M_Flaky.
From Verif Require Import S_Text S_TypeStr S_DType S_Shape S_Header S_Elem S_Strings S_Reader S_Fault S_Broken S_Source S_History S_Flaky.
From Verif Require Import P_Base P_Text P_TypeStr P_IO P_Header P_Elem P_ElemT P_Sizes P_ReadOne P_Reader P_Fault P_Broken P_Source P_History.
Require Import ZifyBool ZifyNat ZifyN.
Open Scope N_scope.

Lemma advance_0 s : advance 0 s = s.
Proof. destruct s as [ d p ]. unfold advance. cbn. now rewrite N.add_0_r. Qed.
Lemma advance_advance a b s : advance a (advance b s) = advance (b + a) s.
Proof. unfold advance. cbn [cur_data cur_pos]. f_equal. lia. Qed.
Lemma rest_advance k s : cur_rest (advance k s) = dropN k (cur_rest s).
Proof. unfold cur_rest, advance. cbn [cur_data cur_pos]. rewrite dropN_dropN. f_equal. lia. Qed.

(** * Reading *)
Lemma fill_flaky_0 s plan acc : fill_flaky 0 s plan acc = (M_Source.Got acc, s, plan).
Proof. destruct plan; reflexivity. Qed.
Lemma fill_flaky_spec plan : forall want s acc,
  (want <= lenN (cur_rest s) /\ exists plan', fill_flaky want s plan acc = (M_Source.Got (acc ++ takeN want (cur_rest s)), advance want s, plan'))
  \/ (lenN (cur_rest s) < want /\ exists plan', fill_flaky want s plan acc = (Ended, advance (lenN (cur_rest s)) s, plan'))
  \/ (exists k e plan', k < want /\ k <= lenN (cur_rest s) /\ fill_flaky want s plan acc = (Broken e, advance k s, plan')).
Proof.
  induction plan as [ | h plan IH ]; intros want s acc; destruct (N.eqb_spec want 0) as [ -> | Hw ];
    try (left; split; [ lia | ]; rewrite fill_flaky_0, takeN_0, app_nil_r, advance_0; eauto).
  - cbn [fill_flaky]. replace (want =? 0) with false by lia. destruct (N.leb_spec want (lenN (cur_rest s))); [ left | right; left ]; eauto.
  - destruct h as [ n | | e ]; cbn [fill_flaky]; replace (want =? 0) with false by lia.
    + cbv zeta. set (bs := takeN (N.min (n + 1) want) (cur_rest s)). assert (Lb : lenN bs = N.min (N.min (n + 1) want) (lenN (cur_rest s))) by (unfold bs; rewrite lenN_takeN; lia).
      destruct (N.eqb_spec (lenN bs) 0) as [ E | E ].
      * right; left. replace (lenN (cur_rest s)) with 0 by lia. rewrite advance_0. split; [ lia | ]. eauto.
      * assert (Eb : bs = takeN (lenN bs) (cur_rest s)). { rewrite Lb. unfold bs. destruct (N.le_gt_cases (N.min (n + 1) want) (lenN (cur_rest s))); [ f_equal; lia | rewrite !takeN_all; auto; lia ]. }
        destruct (IH (want - lenN bs) (advance (lenN bs) s) (acc ++ bs)) as [ (I1 & plan' & I2) | [ (I1 & plan' & I2) | (k & e & plan' & I1 & I2 & I3) ] ]; rewrite rest_advance, lenN_dropN in *.
        -- left. split; [ lia | ]. exists plan'. rewrite I2. rewrite advance_advance, <- app_assoc. replace (lenN bs + (want - lenN bs)) with want by lia. do 4 f_equal.
           rewrite <- (takeN_dropN (lenN bs) (cur_rest s)) at 2. rewrite takeN_app_gen, <- Eb, (takeN_all want bs) by lia. reflexivity.
        -- right; left. split; [ lia | ]. exists plan'. rewrite I2. rewrite advance_advance. do 3 f_equal. lia.
        -- right; right. exists (lenN bs + k), e, plan'. split; [ lia | ]. split; [ lia | ]. now rewrite I3, advance_advance.
    + apply IH.
    + right; right. exists 0, e, plan. rewrite advance_0. split; [ lia | ]. split; [ lia | reflexivity ].
Qed.
(** The result is not settled by [input]. *)
Definition unsettled {A} (p : rprog A) (input : bytes) : Prop := exists more, bytes_ok more /\ run p (input ++ more) <> (fst (run p input), snd (run p input) ++ more).
Definition used {A} (p : rprog A) (input : bytes) : N := lenN input - lenN (snd (run p input)).
Lemma used_read {A} n eof (k : bytes -> rprog A) input : n <= lenN input -> used (RRead n eof k) input = n + used (k (takeN n input)) (dropN n input).
Proof.
  intros H. unfold used. cbn [run]. replace (n <=? lenN input) with true by lia. destruct (run (k (takeN n input)) (dropN n input)) as (r, rest) eqn:E.
  destruct (run_suffix _ _ _ _ E) as (u & Hu). apply (f_equal lenN) in Hu. rewrite lenN_dropN, lenN_app in *. cbn [snd]. lia.
Qed.
Lemma unsettled_read {A} n eof (k : bytes -> rprog A) input : n <= lenN input -> unsettled (RRead n eof k) input <-> unsettled (k (takeN n input)) (dropN n input).
Proof.
  intros H. unfold unsettled. assert (E : run (RRead n eof k) input = run (k (takeN n input)) (dropN n input)) by (cbn [run]; now replace (n <=? lenN input) with true by lia).
  rewrite E. split; intros (more & Hb & Hn); exists more; (split; [ exact Hb | ]); rewrite run_within in * by exact H; exact Hn.
Qed.
Lemma short_read {A} n eof (k : bytes -> rprog A) input : lenN input < n -> run (RRead n eof k) input = (Err eof, []) /\ used (RRead n eof k) input = lenN input /\ unsettled (RRead n eof k) input.
Proof.
  intros H. assert (E : run (RRead n eof k) input = (Err eof, [])) by (cbn [run]; now replace (n <=? lenN input) with false by lia). split; [ exact E | ]. unfold used, unsettled. rewrite E. cbn [fst snd].
  change (lenN []) with 0. split; [ lia | ]. exists (repeatN 0 n). split; [ apply Forall_repeatN; lia | ]. intros F. cbn [app run] in F. rewrite lenN_app, lenN_repeatN in F.
  replace (n <=? lenN input + n) with true in F by lia. apply run_suffix in F as (u & F). apply (f_equal lenN) in F. rewrite lenN_dropN, !lenN_app, lenN_repeatN in F. lia.
Qed.
Lemma run_flaky_spec {A} (p : rprog A) : forall s plan,
  (exists plan', run_flaky p s plan = (Done (fst (run p (cur_rest s))), advance (used p (cur_rest s)) s, plan'))
  \/ (exists k e plan', run_flaky p s plan = (M_Source.Failed e, advance k s, plan') /\ (k < used p (cur_rest s) \/ k = used p (cur_rest s) /\ unsettled p (cur_rest s))).
Proof.
  induction p as [ a | er | | n eof k IH ]; intros s plan; cbn [run_flaky].
  1-3: left; unfold used; cbn [run fst snd]; rewrite N.sub_diag, advance_0; eauto.
  destruct (fill_flaky_spec plan n s []) as [ (H & plan' & ->) | [ (H & plan' & ->) | (j & e & plan' & H1 & H2 & ->) ] ].
  - cbn [app]. destruct (IH (takeN n (cur_rest s)) (advance n s) plan') as [ (plan2 & ->) | (j & e & plan2 & -> & J) ]; rewrite rest_advance in *; rewrite advance_advance.
    + left. rewrite used_read by exact H. cbn [run]. replace (n <=? lenN (cur_rest s)) with true by lia. eauto.
    + right. exists (n + j), e, plan2. split; [ reflexivity | ]. rewrite used_read by exact H. destruct J as [ J | (-> & J) ]; [ left; lia | right; split; [ reflexivity | ] ]. now apply unsettled_read.
  - left. destruct (short_read n eof k (cur_rest s) H) as (E & -> & _). rewrite E. eauto.
  - right. exists j, e, plan'. split; [ reflexivity | ]. destruct (N.le_gt_cases n (lenN (cur_rest s))) as [ Hn | Hn ].
    + left. rewrite used_read by exact Hn. lia.
    + destruct (short_read n eof k (cur_rest s) Hn) as (_ & -> & U). destruct (N.eq_dec j (lenN (cur_rest s))) as [ -> | ]; [ right; auto | left; lia ].
Qed.

(** Every such outcome has a plan. *)
Lemma fill_upto n s more acc : 0 < n -> n <= lenN (cur_rest s) -> forall w, n <= w ->
  fill_flaky w s (Upto (n - 1) :: more) acc = fill_flaky (w - n) (advance n s) more (acc ++ takeN n (cur_rest s)).
Proof.
  intros H0 H w Hw. cbn [fill_flaky]. replace (w =? 0) with false by lia. cbv zeta. replace (N.min (n - 1 + 1) w) with n by lia.
  assert (L : lenN (takeN n (cur_rest s)) = n) by (rewrite lenN_takeN; lia). rewrite L. now replace (n =? 0) with false by lia.
Qed.
Lemma plan_calm {A} (p : rprog A) : forall s, exists plan, forall more, run_flaky p s (plan ++ more) = (Done (fst (run p (cur_rest s))), advance (used p (cur_rest s)) s, more).
Proof.
  induction p as [ a | er | | n eof k IH ]; intros s.
  1-3: exists []; intros more; unfold used; cbn [run_flaky run fst snd app]; rewrite N.sub_diag, advance_0; reflexivity.
  destruct (N.le_gt_cases n (lenN (cur_rest s))) as [ H | H ].
  - destruct (IH (takeN n (cur_rest s)) (advance n s)) as (plan & G). rewrite rest_advance in G. rewrite used_read by exact H.
    assert (E : run (RRead n eof k) (cur_rest s) = run (k (takeN n (cur_rest s))) (dropN n (cur_rest s))) by (cbn [run]; now replace (n <=? lenN (cur_rest s)) with true by lia). rewrite E.
    destruct (N.eq_dec n 0) as [ -> | Hn ].
    + exists plan. intros more. cbn [run_flaky]. rewrite fill_flaky_0. rewrite takeN_0 in *. rewrite advance_0 in G. rewrite N.add_0_l. apply G.
    + exists (Upto (n - 1) :: plan). intros more. cbn [run_flaky app]. rewrite fill_upto by lia. rewrite N.sub_diag, fill_flaky_0. cbn [app]. rewrite G, advance_advance. reflexivity.
  - destruct (short_read n eof k (cur_rest s) H) as (E & U & _). rewrite E, U. cbn [fst]. destruct (N.eq_dec (lenN (cur_rest s)) 0) as [ Hz | Hz ].
    + exists [Upto 0]. intros more. cbn [run_flaky app fill_flaky]. replace (n =? 0) with false by lia. cbv zeta. replace (lenN (takeN (N.min (0 + 1) n) (cur_rest s)) =? 0) with true by (rewrite lenN_takeN; lia).
      rewrite Hz, advance_0. reflexivity.
    + exists [Upto (lenN (cur_rest s) - 1); Upto 0]. intros more. cbn [run_flaky app]. rewrite fill_upto by lia. cbn [fill_flaky]. replace (n - lenN (cur_rest s) =? 0) with false by lia. cbv zeta.
      rewrite rest_advance. rewrite (dropN_all (lenN (cur_rest s))) by lia. rewrite lenN_takeN. change (lenN []) with 0. now replace (N.min (N.min (0 + 1) (n - lenN (cur_rest s))) 0 =? 0) with true by lia.
Qed.
Lemma plan_broken {A} (p : rprog A) e : forall s k, k < used p (cur_rest s) \/ k = used p (cur_rest s) /\ unsettled p (cur_rest s) ->
  exists plan, forall more, run_flaky p s (plan ++ more) = (M_Source.Failed e, advance k s, more).
Proof.
  induction p as [ a | er | | n eof kk IH ]; intros s k H.
  1-3: exfalso; unfold used, unsettled in H; cbn [run fst snd] in H; rewrite N.sub_diag in H; destruct H as [ H | (_ & more & _ & H) ]; [ lia | now apply H ].
  assert (G : k < n -> k <= lenN (cur_rest s) -> exists plan, forall more, run_flaky (RRead n eof kk) s (plan ++ more) = (M_Source.Failed e, advance k s, more)).
  { intros Hk Hl. destruct (N.eq_dec k 0) as [ -> | Hn ].
    - exists [Fail e]. intros more. cbn [run_flaky app fill_flaky]. replace (n =? 0) with false by lia. now rewrite advance_0.
    - exists [Upto (k - 1); Fail e]. intros more. cbn [run_flaky app]. rewrite fill_upto by lia. cbn [fill_flaky]. now replace (n - k =? 0) with false by lia. }
  destruct (N.le_gt_cases n (lenN (cur_rest s))) as [ Hn | Hn ].
  - destruct (N.lt_ge_cases k n) as [ Hk | Hk ]; [ apply G; lia | ]. rewrite used_read, unsettled_read in H by exact Hn.
    destruct (IH (takeN n (cur_rest s)) (advance n s) (k - n)) as (plan & P). { rewrite rest_advance. destruct H as [ H | (H & U) ]; [ left; lia | right; split; [ lia | exact U ] ]. }
    rewrite advance_advance in P. replace (n + (k - n)) with k in P by lia. destruct (N.eq_dec n 0) as [ -> | Hz ].
    + exists plan. intros more. cbn [run_flaky]. rewrite fill_flaky_0. rewrite takeN_0, advance_0 in P. apply P.
    + exists (Upto (n - 1) :: plan). intros more. cbn [run_flaky app]. rewrite fill_upto by lia. rewrite N.sub_diag, fill_flaky_0. cbn [app]. apply P.
  - destruct (short_read n eof kk (cur_rest s) Hn) as (_ & U & _). rewrite U in H. apply G; lia.
Qed.

(** * An item *)
Lemma midway_run c t d rd input k : wf_dtype d -> strings_fit (c_usize_max c) d -> reader c t d = DOk rd -> bytes_ok input ->
  midway t d input k <-> k < used (read_one c rd) input \/ k = used (read_one c rd) input /\ unsettled (read_one c rd) input.
Proof.
  intros Hw Hs Hr Hb. destruct (run (read_one c rd) input) as (x, rest) eqn:E. pose proof (run_attempt c t d rd input x rest Hw Hs Hr Hb E) as A.
  assert (U : used (read_one c rd) input = lenN input - lenN rest) by (unfold used; now rewrite E). rewrite U.
  assert (I : unsettled (read_one c rd) input <-> say_item x = S_History.Failed EUnexpectedEof).
  { unfold unsettled. rewrite E. cbn [fst snd]. split.
    - intros (more & Hm & N). pose proof (run_attempt c t d rd input x rest Hw Hs Hr Hb E) as A'. inversion A' as [ b r v Hi Hl Hd Hx | b r msg Hi Hu Hx Hk | Hl Hn Hx ]; subst.
      + exfalso. apply N. pose proof Hb as Hb'. apply Forall_app in Hb' as (Hb1 & _). destruct x as [ v' | | ]; try discriminate Hx. cbn [say_item] in Hx. assert (v' = v) by congruence. subst v'.
        pose proof (item_value c t d rd b v r Hw Hs Hr Hb1 Hl Hd) as R. rewrite R in E. apply pair_inj in E as (_ & <-). rewrite <- app_assoc. now apply (item_value c t d rd).
      + exfalso. apply N. destruct x as [ | e | ]; try discriminate Hx. cbn [say_item] in Hx. assert (e = EData msg) by congruence. subst e.
        assert (R : run (read_one c rd) (b ++ r) = (Err (EData msg), r)) by (apply (unreadable_exact c t d); auto; [ discriminate | eauto ]).
        rewrite R in E. apply pair_inj in E as (_ & <-). apply (unreadable_exact c t d); auto; [ now apply Forall_app | discriminate | ]. exists b, msg. split; [ now rewrite app_assoc | ]. split; [ reflexivity | exact Hu ].
      + reflexivity.
    - intros Hx. exists (repeatN 0 (size d)). assert (Hz : bytes_ok (repeatN 0 (size d))) by (apply Forall_repeatN; lia). split; [ exact Hz | ]. intros R.
      assert (Hb2 : bytes_ok (input ++ repeatN 0 (size d))) by (apply Forall_app; auto). pose proof (run_attempt c t d rd _ _ _ Hw Hs Hr Hb2 R) as A'. rewrite Hx in A'.
      inversion A' as [ | | Hl Hn Hk ]; subst. rewrite lenN_app, lenN_repeatN in Hl. lia. }
  rewrite I. unfold midway. split.
  - intros (s & n & B & K). destruct (attempt_unique c t d rd _ _ _ _ _ Hw Hs Hr Hb A B) as (<- & <-). exact K.
  - intros K. eexists _, _. split; [ exact A | exact K ].
Qed.

(** * The reader *)
Lemma flaky_next c t f rd i p reads seeks : opens c t f rd -> bytes_ok (cur_data (nf_src f)) -> i < h_n_records (nf_header f) ->
  (exists x k reads', fr_next c (with_plans reads seeks (at_place f rd (i, p))) = (Some (Done x), with_plans reads' seeks (at_place f rd (i + 1, p + k)))
     /\ attempt t (h_dtype (nf_header f)) (dropN p (cur_data (nf_src f))) (say_item x) k)
  \/ (exists e k reads', fr_next c (with_plans reads seeks (at_place f rd (i, p))) = (Some (M_Source.Failed e), with_plans reads' seeks (at_place f rd (i + 1, p + k)))
     /\ midway t (h_dtype (nf_header f)) (dropN p (cur_data (nf_src f))) k).
Proof.
  intros (Hw & _ & Hr & _ & Hs) Hb Hi. unfold fr_next, with_plans. cbn [fr_index fr_header fr_type fr_src fr_reads fr_seeks nr_header nr_type nr_src nr_index at_place fst snd].
  replace (i <? h_n_records (nf_header f)) with true by lia. set (s := {| cur_data := cur_data (nf_src f); cur_pos := p |}).
  assert (Er : cur_rest s = dropN p (cur_data (nf_src f))) by reflexivity. assert (Hb' : bytes_ok (cur_rest s)) by (rewrite Er; now apply Forall_dropN).
  destruct (run_flaky_spec (read_one c rd) s reads) as [ (plan' & ->) | (k & e & plan' & -> & K) ].
  - left. eexists _, _, plan'. split; [ reflexivity | ]. rewrite <- Er. unfold used. destruct (run (read_one c rd) (cur_rest s)) as (x, rest) eqn:E. now apply (run_attempt c t _ rd).
  - right. exists e, k, plan'. split; [ reflexivity | ]. rewrite <- Er. now apply (midway_run c t _ rd).
Qed.
Lemma flaky_next_calm c t f rd i p s k : opens c t f rd -> bytes_ok (cur_data (nf_src f)) -> i < h_n_records (nf_header f) ->
  attempt t (h_dtype (nf_header f)) (dropN p (cur_data (nf_src f))) s k ->
  exists x plan, s = say_item x /\ forall reads seeks, fr_next c (with_plans (plan ++ reads) seeks (at_place f rd (i, p))) = (Some (Done x), with_plans reads seeks (at_place f rd (i + 1, p + k))).
Proof.
  intros (Hw & _ & Hr & _ & Hs) Hb Hi A. unfold fr_next, with_plans. cbn [fr_index fr_header fr_type fr_src fr_reads fr_seeks nr_header nr_type nr_src nr_index at_place fst snd].
  replace (i <? h_n_records (nf_header f)) with true by lia. set (src := {| cur_data := cur_data (nf_src f); cur_pos := p |}).
  assert (Er : cur_rest src = dropN p (cur_data (nf_src f))) by reflexivity. rewrite <- Er in A.
  destruct (attempt_run c t _ rd _ _ _ Hw Hs Hr (Forall_dropN _ _ _ Hb : bytes_ok (cur_rest src)) A) as (x & rest & R & -> & ->).
  destruct (plan_calm (read_one c rd) src) as (plan & G). unfold used in G. rewrite R in G. cbn [fst snd] in G. exists x, plan. split; [ reflexivity | ]. intros reads seeks. rewrite G. reflexivity.
Qed.
Lemma flaky_next_broken c t f rd i p k e : opens c t f rd -> bytes_ok (cur_data (nf_src f)) -> i < h_n_records (nf_header f) ->
  midway t (h_dtype (nf_header f)) (dropN p (cur_data (nf_src f))) k ->
  exists plan, forall reads seeks, fr_next c (with_plans (plan ++ reads) seeks (at_place f rd (i, p))) = (Some (M_Source.Failed e), with_plans reads seeks (at_place f rd (i + 1, p + k))).
Proof.
  intros (Hw & _ & Hr & _ & Hs) Hb Hi A. unfold fr_next, with_plans. cbn [fr_index fr_header fr_type fr_src fr_reads fr_seeks nr_header nr_type nr_src nr_index at_place fst snd].
  replace (i <? h_n_records (nf_header f)) with true by lia. set (src := {| cur_data := cur_data (nf_src f); cur_pos := p |}).
  apply (midway_run c t _ rd) in A; auto; [ | now apply Forall_dropN ]. change (dropN p (cur_data (nf_src f))) with (cur_rest src) in A.
  destruct (plan_broken (read_one c rd) e src k A) as (plan & G). exists plan. intros reads seeks. rewrite G. reflexivity.
Qed.

Definition as_res {A} (x : res A) : outcome A := Done x.
Lemma flaky_seek c j r reads seeks :
  (exists seeks', fr_seek_to c j (with_plans reads seeks r) = (Done (fst (nr_seek_to c j r)), with_plans reads seeks' (snd (nr_seek_to c j r))))
  \/ (exists e seeks', fr_seek_to c j (with_plans reads seeks r) = (M_Source.Failed e, with_plans reads seeks' r) /\ j <= nr_total_len r /\ j <> nr_index r).
Proof.
  unfold fr_seek_to, nr_seek_to, nr_total_len. cbn [with_plans fr_header fr_index fr_src fr_seeks fr_reads fr_type].
  destruct (N.ltb_spec (h_n_records (nr_header r)) j) as [ Hn | Hn ]; [ left; eauto | ].
  destruct (i64_op c (as_i64 j - as_i64 (nr_index r))) as [ delta | e | ] eqn:Ed; [ | left; eauto .. ].
  destruct (Z.eqb_spec delta 0) as [ Hd | Hd ]; [ left; eauto | ]. destruct (h_item_size (nr_header r)) as [ z | ]; [ | left; eauto ].
  destruct (i64_op c (delta * as_i64 z)) as [ dd | e | ]; [ | left; eauto .. ].
  assert (Hj : j <> nr_index r). { intros ->. rewrite Z.sub_diag in Ed. unfold i64_op in Ed. cbn in Ed. congruence. }
  unfold cur_seek. destruct r as [ h ty [ D P ] i ]. cbn [nr_header nr_type nr_src nr_index cur_pos cur_data] in *.
  destruct seeks as [ | [ e | ] seeks ]; cbn [seek_flaky]; unfold cur_seek; cbn [cur_pos cur_data].
  - destruct ((_ <? 0) || _)%Z%bool; left; eexists; reflexivity.
  - right. exists e, seeks. split; [ reflexivity | auto ].
  - destruct ((_ <? 0) || _)%Z%bool; left; eexists; reflexivity.
Qed.
Lemma flaky_seek_calm c j r : exists plan, forall reads seeks, fr_seek_to c j (with_plans reads (plan ++ seeks) r) = (Done (fst (nr_seek_to c j r)), with_plans reads seeks (snd (nr_seek_to c j r))).
Proof.
  unfold fr_seek_to, nr_seek_to, nr_total_len. cbn [with_plans fr_header fr_index fr_src fr_seeks fr_reads fr_type].
  destruct (N.ltb_spec (h_n_records (nr_header r)) j) as [ Hn | Hn ]; [ exists []; reflexivity | ].
  destruct (i64_op c (as_i64 j - as_i64 (nr_index r))) as [ delta | e | ] eqn:Ed; [ | exists []; reflexivity .. ].
  destruct (Z.eqb_spec delta 0) as [ Hd | Hd ]; [ exists []; reflexivity | ]. destruct (h_item_size (nr_header r)) as [ z | ]; [ | exists []; reflexivity ].
  destruct (i64_op c (delta * as_i64 z)) as [ dd | e | ]; [ | exists []; reflexivity .. ]. exists [None]. intros reads seeks.
  destruct r as [ h ty [ D P ] i ]. cbn [app seek_flaky nr_src]. unfold cur_seek. cbn [cur_pos cur_data]. destruct ((_ <? 0) || _)%Z%bool; reflexivity.
Qed.
Lemma flaky_seek_broken c t f rd i p j e : opens c t f rd -> addressable c f -> in_place f (i, p) -> j <= h_n_records (nf_header f) -> j <> i -> forall reads seeks,
  fr_seek_to c j (with_plans reads (Some e :: seeks) (at_place f rd (i, p))) = (M_Source.Failed e, with_plans reads seeks (at_place f rd (i, p))).
Proof.
  intros Ho Ha Hp Hj Hn reads seeks. pose proof (seek_place c t f rd i p j Ho Ha Hp Hj) as S. cbv zeta in S.
  unfold fr_seek_to. cbn [with_plans fr_header fr_index fr_src fr_seeks fr_reads fr_type]. unfold nr_seek_to, nr_total_len in S. cbn [nr_header nr_index nr_src nr_type at_place fst snd] in *.
  replace (h_n_records (nf_header f) <? j) with false in * by lia.
  assert (I : forall y er, i64_op c y <> Err er) by (intros y er; unfold i64_op; destruct (_ && _)%bool; [ discriminate | destruct (c_ovf_panics c); discriminate ]).
  destruct (i64_op c (as_i64 j - as_i64 i)) as [ delta | er | ] eqn:Ed; [ | now apply I in Ed | destruct (_ <? _)%N; discriminate S ].
  destruct (Z.eqb_spec delta 0) as [ Hd | Hd ].
  { exfalso. destruct (p + j * size (h_dtype (nf_header f)) <? i * size (h_dtype (nf_header f))); [ discriminate S | ]. apply pair_inj in S as (_ & S).
    apply (f_equal nr_index) in S. cbn [nr_index fst at_place] in S. congruence. }
  destruct (h_item_size (nf_header f)) as [ z | ]; [ | destruct (_ <? _)%N; discriminate S ].
  destruct (i64_op c (delta * as_i64 z)) as [ dd | er | ] eqn:Ed2; [ | now apply I in Ed2 | destruct (_ <? _)%N; discriminate S ]. reflexivity.
Qed.

(** * Steps *)
Lemma midway_at_most c t d rd input k : wf_dtype d -> strings_fit (c_usize_max c) d -> reader c t d = DOk rd -> bytes_ok input -> midway t d input k -> k < size d.
Proof.
  intros Hw Hs Hr Hb (s & n & A & K). pose proof (attempt_at_most c t d rd _ _ _ Hw Hs Hr Hb A) as (L & _). destruct K as [ K | (-> & ->) ]; [ lia | ]. inversion A; lia.
Qed.
Lemma flaky_step_sound c t f rd k a reads seeks : opens c t f rd -> addressable c f -> bytes_ok (cur_data (nf_src f)) -> in_place f a ->
  exists s b reads' seeks', flaky_one c k (with_plans reads seeks (at_place f rd a)) = (s, with_plans reads' seeks' (at_place f rd b)) /\ in_place f b
    /\ flaky_step (c_usize_max c) t (h_dtype (nf_header f)) (h_n_records (nf_header f)) (cur_data (nf_src f)) k a s b.
Proof.
  intros Ho Ha Hb Hp. destruct a as (i, p). pose proof Ho as (Hw & Hn & Hr & Hs & Hf). pose proof Hp as (Hp1 & Hp2). cbn [fst snd] in Hp1, Hp2. set (z := size (h_dtype (nf_header f))) in *.
  assert (Hb' : forall q, bytes_ok (dropN q (cur_data (nf_src f)))) by (intros q; now apply Forall_dropN).
  destruct k as [ | j | j | | ]; cbn [flaky_one].
  - destruct (N.lt_ge_cases i (h_n_records (nf_header f))) as [ Hlt | Hge ].
    + destruct (flaky_next c t f rd i p reads seeks Ho Hb Hlt) as [ (x & k & reads' & -> & A) | (e & k & reads' & -> & A) ]; eexists _, _, _, _; (split; [ reflexivity | ]).
      * split; [ | apply calm; now constructor ]. apply (attempt_at_most c t _ rd) in A; auto. fold z in A. split; cbn [fst snd]; fold z; nia.
      * split; [ | now constructor ]. apply (midway_at_most c t _ rd) in A; auto. fold z in A. split; cbn [fst snd]; fold z; nia.
    + unfold fr_next. cbn [with_plans fr_index fr_header at_place nr_index nr_header fst]. replace (i <? h_n_records (nf_header f)) with false by lia. eexists _, (i, p), reads, seeks. split; [ reflexivity | ].
      split; [ exact Hp | ]. apply calm. now constructor.
  - destruct (step_exists c t f rd (CSeek j) (i, p) Ho Ha Hb Hp) as (s & b & E & Hpb & St). cbn [perform_one] in E.
    destruct (flaky_seek c j (at_place f rd (i, p)) reads seeks) as [ (seeks' & ->) | (e & seeks' & -> & H1 & H2) ].
    + destruct (nr_seek_to c j (at_place f rd (i, p))) as ([ [] | er | ], r'); apply pair_inj in E as (<- & ->); cbn [fst snd]; eexists _, b, _, _; (split; [ reflexivity | ]); (split; [ exact Hpb | ]); now apply calm.
    + eexists _, (i, p), _, _. split; [ reflexivity | ]. split; [ exact Hp | ]. now constructor.
  - unfold fr_read_at. cbn [with_plans fr_header at_place nr_header]. fold (at_place f rd (i, p)). destruct (N.leb_spec (h_n_records (nf_header f)) j) as [ Hge | Hlt ].
    + eexists _, (i, p), reads, seeks. split; [ reflexivity | ]. split; [ exact Hp | ]. apply calm. now constructor.
    + fold (with_plans reads seeks (at_place f rd (i, p))). destruct (flaky_seek c j (at_place f rd (i, p)) reads seeks) as [ (seeks' & E) | (e & seeks' & E & H1 & H2) ].
      * change {| fr_header := nf_header f; fr_type := nr_type (at_place f rd (i, p)); fr_src := nr_src (at_place f rd (i, p)); fr_reads := reads; fr_seeks := seeks; fr_index := nr_index (at_place f rd (i, p)) |}
          with (with_plans reads seeks (at_place f rd (i, p))). rewrite E. rewrite (seek_place c t) by (auto; lia). cbv zeta. fold z.
        destruct (N.ltb_spec (p + j * z) (i * z)) as [ Hl | Hg ]; cbn [fst snd].
        -- eexists _, (i, p), _, _. split; [ reflexivity | ]. split; [ exact Hp | ]. apply calm. now constructor.
        -- destruct (flaky_next c t f rd j (p + j * z - i * z) reads seeks' Ho Hb Hlt) as [ (x & k & reads' & -> & A) | (e & k & reads' & -> & A) ]; eexists _, _, _, _; (split; [ reflexivity | ]).
           ++ split; [ | apply calm; apply at_there; [ auto | fold z; lia | auto ] ]. apply (attempt_at_most c t _ rd) in A; auto. fold z in A. split; cbn [fst snd]; fold z; nia.
           ++ split; [ | apply at_broken; [ auto | fold z; lia | auto ] ]. apply (midway_at_most c t _ rd) in A; auto. fold z in A. split; cbn [fst snd]; fold z; nia.
      * change {| fr_header := nf_header f; fr_type := nr_type (at_place f rd (i, p)); fr_src := nr_src (at_place f rd (i, p)); fr_reads := reads; fr_seeks := seeks; fr_index := nr_index (at_place f rd (i, p)) |}
          with (with_plans reads seeks (at_place f rd (i, p))). rewrite E. eexists _, (i, p), _, _. split; [ reflexivity | ]. split; [ exact Hp | ]. apply at_seek_broken; auto.
  - destruct (step_exists c t f rd CLen (i, p) Ho Ha Hb Hp) as (s & b & E & Hpb & St). inversion St; subst. eexists _, (i, p), reads, seeks. split; [ | split; [ exact Hp | apply calm; exact St ] ].
    f_equal. f_equal. exact (f_equal fst E).
  - destruct (step_exists c t f rd CHint (i, p) Ho Ha Hb Hp) as (s & b & E & Hpb & St). assert (b = (i, p)) by (inversion St; reflexivity). subst b.
    eexists _, (i, p), reads, seeks. split; [ | split; [ exact Hp | apply calm; exact St ] ]. f_equal. f_equal. exact (f_equal fst E).
Qed.
Lemma flaky_step_complete c t f rd k a s b : opens c t f rd -> addressable c f -> bytes_ok (cur_data (nf_src f)) -> in_place f a ->
  flaky_step (c_usize_max c) t (h_dtype (nf_header f)) (h_n_records (nf_header f)) (cur_data (nf_src f)) k a s b ->
  exists rp sp, forall reads seeks, flaky_one c k (with_plans (rp ++ reads) (sp ++ seeks) (at_place f rd a)) = (s, with_plans reads seeks (at_place f rd b)).
Proof.
  intros Ho Ha Hb Hp H. set (z := size (h_dtype (nf_header f))) in *.
  assert (At : forall i p j reads seeks, j < h_n_records (nf_header f) -> fr_read_at c j (with_plans reads seeks (at_place f rd (i, p))) =
    match fr_seek_to c j (with_plans reads seeks (at_place f rd (i, p))) with
    | (Done (Ok _), r') => match fr_next c r' with (Some v, r'') => (v, r'') | (None, r'') => (Done Panic, r'') end
    | (Done (Err e), r') => (Done (Err e), r') | (Done Panic, r') => (Done Panic, r') | (M_Source.Failed e, r') => (M_Source.Failed e, r') end).
  { intros i p j reads seeks Hj. unfold fr_read_at. cbn [with_plans fr_header at_place nr_header]. replace (h_n_records (nf_header f) <=? j) with false by lia. reflexivity. }
  inversion H as [ k' a' s' b' St | i p k' e Hi M | i p j q k' e Hj Hq M | i p j e Hj Hn | i p j e Hj Hn ]; subst.
  - inversion St as [ i p s k' Hi A | i p Hi | i p j q Hj Hq | i p j Hj Hq | i p j Hj | i p j q s k' Hj Hq A | i p j Hj Hq | i p j Hj | i p | i p Hm | i p Hm ]; subst; cbn [flaky_one].
    + destruct (flaky_next_calm c t f rd i p _ _ Ho Hb Hi A) as (x & plan & -> & G). exists plan, []. intros reads seeks. cbn [app]. rewrite G. reflexivity.
    + exists [], []. intros reads seeks. unfold fr_next. cbn [app with_plans fr_index fr_header at_place nr_index nr_header fst]. now replace (i <? h_n_records (nf_header f)) with false by lia.
    + destruct (flaky_seek_calm c j (at_place f rd (i, p))) as (plan & G). exists [], plan. intros reads seeks. cbn [app]. rewrite G. rewrite (seek_place c t) by auto. cbv zeta. fold z in Hq |- *.
      replace (p + j * z <? i * z) with false by lia. replace (p + j * z - i * z) with q by lia. reflexivity.
    + destruct (flaky_seek_calm c j (at_place f rd (i, p))) as (plan & G). exists [], plan. intros reads seeks. cbn [app]. rewrite G. rewrite (seek_place c t) by auto. cbv zeta. fold z in Hq |- *.
      replace (p + j * z <? i * z) with true by lia. reflexivity.
    + exists [], []. intros reads seeks. unfold fr_seek_to. cbn [app with_plans fr_header at_place nr_header]. now replace (h_n_records (nf_header f) <? j) with true by lia.
    + destruct (flaky_seek_calm c j (at_place f rd (i, p))) as (sp & G). destruct (flaky_next_calm c t f rd j q _ _ Ho Hb Hj A) as (x & rp & -> & G2). exists rp, sp. intros reads seeks.
      rewrite At by auto. rewrite G. rewrite (seek_place c t) by (auto; lia). cbv zeta. fold z in Hq |- *. replace (p + j * z <? i * z) with false by lia. cbn [fst snd].
      replace (p + j * z - i * z) with q by lia. rewrite G2. reflexivity.
    + destruct (flaky_seek_calm c j (at_place f rd (i, p))) as (sp & G). exists [], sp. intros reads seeks.
      rewrite At by auto. cbn [app]. rewrite G. rewrite (seek_place c t) by (auto; lia). cbv zeta. fold z in Hq |- *. replace (p + j * z <? i * z) with true by lia. reflexivity.
    + exists [], []. intros reads seeks. unfold fr_read_at. cbn [app with_plans fr_header at_place nr_header]. now replace (h_n_records (nf_header f) <=? j) with true by lia.
    + exists [], []. intros reads seeks. cbn [app]. do 2 f_equal. destruct Hp as (H1 & _). cbn [fst] in H1. cbn [perform_one]. unfold nr_len, nr_total_len. cbn [nr_index nr_header with_plans fr_index fr_header at_place fst].
      now replace (i <=? h_n_records (nf_header f)) with true by lia.
    + exists [], []. intros reads seeks. cbn [app]. do 2 f_equal. destruct Hp as (H1 & _). cbn [fst] in H1. cbn [perform_one]. unfold nr_size_hint, nr_len, nr_total_len. cbn [nr_index nr_header with_plans fr_index fr_header at_place fst].
      replace (i <=? h_n_records (nf_header f)) with true by lia. cbn [bind]. now replace (c_usize_max c <? h_n_records (nf_header f) - i) with false by lia.
    + exists [], []. intros reads seeks. cbn [app]. do 2 f_equal. destruct Hp as (H1 & _). cbn [fst] in H1. cbn [perform_one]. unfold nr_size_hint, nr_len, nr_total_len. cbn [nr_index nr_header with_plans fr_index fr_header at_place fst].
      replace (i <=? h_n_records (nf_header f)) with true by lia. cbn [bind]. now replace (c_usize_max c <? h_n_records (nf_header f) - i) with true by lia.
  - destruct (flaky_next_broken c t f rd i p k' e Ho Hb Hi M) as (rp & G). exists rp, []. intros reads seeks. cbn [app flaky_one]. rewrite G. reflexivity.
  - destruct (flaky_seek_calm c j (at_place f rd (i, p))) as (sp & G). destruct (flaky_next_broken c t f rd j q k' e Ho Hb Hj M) as (rp & G2). exists rp, sp. intros reads seeks. cbn [flaky_one].
    rewrite At by auto. rewrite G. rewrite (seek_place c t) by (auto; lia). cbv zeta. fold z in Hq |- *. replace (p + j * z <? i * z) with false by lia. cbn [fst snd].
    replace (p + j * z - i * z) with q by lia. rewrite G2. reflexivity.
  - exists [], [Some e]. intros reads seeks. cbn [app flaky_one]. rewrite (flaky_seek_broken c t) by auto. reflexivity.
  - exists [], [Some e]. intros reads seeks. cbn [app flaky_one]. rewrite At by auto. rewrite (flaky_seek_broken c t) by (auto; lia). reflexivity.
Qed.

(** * Histories *)
Lemma flaky_step_in_place c t f rd k a s b : opens c t f rd -> addressable c f -> bytes_ok (cur_data (nf_src f)) -> in_place f a ->
  flaky_step (c_usize_max c) t (h_dtype (nf_header f)) (h_n_records (nf_header f)) (cur_data (nf_src f)) k a s b -> in_place f b.
Proof.
  intros Ho Ha Hb Hp H. destruct (flaky_step_complete c t f rd k a s b Ho Ha Hb Hp H) as (rp & sp & G).
  destruct (flaky_step_sound c t f rd k a (rp ++ []) (sp ++ []) Ho Ha Hb Hp) as (s' & b' & reads' & seeks' & E & Hp' & _). rewrite G in E. apply pair_inj in E as (_ & E).
  assert (b = b'); [ | now subst ]. destruct b as (i, p), b' as (i', p'). pose proof (f_equal fr_index E) as E1. pose proof (f_equal fr_src E) as E2. cbn in E1, E2. congruence.
Qed.
Lemma flaky_history_sound c t f rd ks : opens c t f rd -> addressable c f -> bytes_ok (cur_data (nf_src f)) -> forall a reads seeks, in_place f a ->
  exists ss b reads' seeks', flaky_perform c ks (with_plans reads seeks (at_place f rd a)) = (ss, with_plans reads' seeks' (at_place f rd b)) /\ in_place f b
    /\ flaky_history (c_usize_max c) t (h_dtype (nf_header f)) (h_n_records (nf_header f)) (cur_data (nf_src f)) ks a ss b.
Proof.
  intros Ho Ha Hb. induction ks as [ | k ks IH ]; intros a reads seeks Hp; cbn [flaky_perform].
  - exists [], a, reads, seeks. split; [ reflexivity | ]. split; [ auto | constructor ].
  - destruct (flaky_step_sound c t f rd k a reads seeks Ho Ha Hb Hp) as (s & b & r1 & s1 & -> & Hpb & St). destruct (IH b r1 s1 Hpb) as (ss & e & r2 & s2 & -> & Hpe & Hh).
    exists (s :: ss), e, r2, s2. split; [ reflexivity | ]. split; [ auto | ]. econstructor; eauto.
Qed.
Lemma flaky_history_complete c t f rd : opens c t f rd -> addressable c f -> bytes_ok (cur_data (nf_src f)) -> forall ks a ss b, in_place f a ->
  flaky_history (c_usize_max c) t (h_dtype (nf_header f)) (h_n_records (nf_header f)) (cur_data (nf_src f)) ks a ss b ->
  exists rp sp, forall reads seeks, flaky_perform c ks (with_plans (rp ++ reads) (sp ++ seeks) (at_place f rd a)) = (ss, with_plans reads seeks (at_place f rd b)).
Proof.
  intros Ho Ha Hb ks a ss b Hp H. induction H as [ a | k ks a s ss b e St H IH ].
  - exists [], []. reflexivity.
  - destruct (flaky_step_complete c t f rd k a s b Ho Ha Hb Hp St) as (rp & sp & G). destruct IH as (rp2 & sp2 & G2); [ eapply flaky_step_in_place; eauto | ].
    exists (rp ++ rp2), (sp ++ sp2). intros reads seeks. cbn [flaky_perform]. rewrite <- !app_assoc, G, G2. reflexivity.
Qed.
Lemma flaky_exact c t src f src' r ks ss i p : bytes_ok (cur_data src) -> npy_new c src = (Ok f, src') -> npy_data c t f = DOk r -> addressable c f ->
  (exists reads seeks r', flaky_perform c ks (with_plans reads seeks r) = (ss, r') /\ fr_index r' = i /\ fr_src r' = {| cur_data := cur_data src; cur_pos := p |})
  <-> flaky_history (c_usize_max c) t (h_dtype (nf_header f)) (h_n_records (nf_header f)) (cur_data src) ks (0, cur_pos (nf_src f)) ss (i, p).
Proof.
  intros Hb Hf Hr Ha. destruct (data_opens _ _ _ _ _ _ (proj1 Ha) Hb Hf Hr) as (rd & Ho & ->). pose proof (source_kept _ _ _ _ Hf) as Hk.
  assert (Hb' : bytes_ok (cur_data (nf_src f))) by now rewrite Hk.
  assert (Hp : in_place f (0, cur_pos (nf_src f))) by (split; cbn [fst snd]; lia).
  replace {| nr_header := nf_header f; nr_type := rd; nr_src := nf_src f; nr_index := 0 |} with (at_place f rd (0, cur_pos (nf_src f)))
    by (unfold at_place; cbn [fst snd]; now destruct (nf_src f)). split.
  - intros (reads & seeks & r' & E & E1 & E2). destruct (flaky_history_sound c t f rd ks Ho Ha Hb' _ reads seeks Hp) as (ss' & b & reads' & seeks' & E' & _ & Hh). rewrite E in E'. apply pair_inj in E' as (<- & ->).
    rewrite Hk in Hh. destruct b as (i', p'). cbn [with_plans fr_index fr_src at_place nr_index nr_src fst snd] in *. rewrite Hk in E2. assert (p' = p) by congruence. now subst.
  - rewrite <- Hk. intros H. destruct (flaky_history_complete c t f rd Ho Ha Hb' _ _ _ _ Hp H) as (rp & sp & G). specialize (G [] []). exists (rp ++ []), (sp ++ []). eexists. split; [ exact G | ]. split; reflexivity.
Qed.

(** * Consequences *)
Lemma flaky_behind c t d rd m n data k i p s i' p' : wf_dtype d -> strings_fit (c_usize_max c) d -> reader c t d = DOk rd -> bytes_ok data ->
  flaky_step m t d n data k (i, p) s (i', p') -> p' + i * size d <= p + i' * size d /\ (k = CNext -> (exists e, s = SourceError e) -> p' + i * size d < p + i' * size d).
Proof.
  intros Hw Hs Hr Hb H. inversion H as [ k' a' s' b' St | ? ? k' e Hi M | ? ? j q k' e Hj Hq M | ? ? j e Hj Hn | ? ? j e Hj Hn ]; subst.
  - split; [ now apply (step_behind c t d rd) in St as (St & _) | ]. intros _ (e & He). discriminate He.
  - apply (midway_at_most c t d rd) in M; auto; [ | now apply Forall_dropN ]. split; nia.
  - apply (midway_at_most c t d rd) in M; auto; [ | now apply Forall_dropN ]. split; [ nia | discriminate ].
  - split; [ lia | discriminate ].
  - split; [ lia | discriminate ].
Qed.
Lemma flaky_history_behind c t d rd m n data : wf_dtype d -> strings_fit (c_usize_max c) d -> reader c t d = DOk rd -> bytes_ok data ->
  forall ks i p ss i' p', flaky_history m t d n data ks (i, p) ss (i', p') -> p' + i * size d <= p + i' * size d.
Proof.
  intros Hw Hs Hr Hb. induction ks as [ | k ks IH ]; intros i p ss i' p' H; inversion H; subst; [ lia | ].
  destruct b as (i1, p1). match goal with A : flaky_step _ _ _ _ _ _ _ _ _ |- _ => apply (flaky_behind c t d rd) in A as (A1 & _); auto end.
  match goal with A : flaky_history _ _ _ _ _ ks _ _ _ |- _ => apply IH in A end. nia.
Qed.
Lemma flaky_history_app m t d n data ks1 : forall a ss1 ks2 ss2 b, List.length ks1 = List.length ss1 ->
  flaky_history m t d n data (ks1 ++ ks2) a (ss1 ++ ss2) b -> exists q, flaky_history m t d n data ks1 a ss1 q /\ flaky_history m t d n data ks2 q ss2 b.
Proof.
  induction ks1 as [ | k ks1 IH ]; intros a [ | s ss1 ] ks2 ss2 b L H; try discriminate L; cbn [app] in H.
  - exists a. split; [ constructor | exact H ].
  - inversion H; subst. match goal with A : flaky_history _ _ _ _ _ (ks1 ++ ks2) _ _ _ |- _ => apply IH in A as (q & A1 & A2); [ | now injection L ] end. exists q. split; [ econstructor; eauto | exact A2 ].
Qed.
(** After a failed [next], every item is taken from before its place. *)
Lemma displaced c t src f src' r ks1 ss1 e ks2 ss2 j v reads seeks : bytes_ok (cur_data src) -> npy_new c src = (Ok f, src') -> npy_data c t f = DOk r -> addressable c f ->
  List.length ks1 = List.length ss1 -> List.length ks2 = List.length ss2 ->
  fst (flaky_perform c (ks1 ++ CNext :: ks2 ++ [CReadAt j]) (with_plans reads seeks r)) = ss1 ++ SourceError e :: ss2 ++ [Told (S_History.Got v)] ->
  let z := size (h_dtype (nf_header f)) in
  exists q b rest, q < cur_pos (nf_src f) + j * z /\ dropN q (cur_data src) = b ++ rest /\ lenN b = z /\ decode t (h_dtype (nf_header f)) b = Some v.
Proof.
  intros Hb Hf Hr Ha L1 L2 E z. destruct (flaky_perform c _ _) as (ss, r') eqn:EP. cbn [fst] in E. subst ss.
  assert (Hk : cur_data (fr_src r') = cur_data src).
  { destruct (data_opens _ _ _ _ _ _ (proj1 Ha) Hb Hf Hr) as (rd & Ho & ->). pose proof (source_kept _ _ _ _ Hf) as Hk. assert (Hb' : bytes_ok (cur_data (nf_src f))) by now rewrite Hk.
    assert (Hp : in_place f (0, cur_pos (nf_src f))) by (split; cbn [fst snd]; lia).
    replace {| nr_header := nf_header f; nr_type := rd; nr_src := nf_src f; nr_index := 0 |} with (at_place f rd (0, cur_pos (nf_src f))) in EP
      by (unfold at_place; cbn [fst snd]; now destruct (nf_src f)).
    destruct (flaky_history_sound c t f rd (ks1 ++ CNext :: ks2 ++ [CReadAt j]) Ho Ha Hb' _ reads seeks Hp) as (ss' & b & reads' & seeks' & E' & _ & _). rewrite EP in E'. apply pair_inj in E' as (_ & ->). exact Hk. }
  assert (H : flaky_history (c_usize_max c) t (h_dtype (nf_header f)) (h_n_records (nf_header f)) (cur_data src) (ks1 ++ CNext :: ks2 ++ [CReadAt j]) (0, cur_pos (nf_src f)) (ss1 ++ SourceError e :: ss2 ++ [Told (S_History.Got v)]) (fr_index r', cur_pos (fr_src r'))).
  { apply (flaky_exact c t src f src' r); auto. exists reads, seeks, r'. split; [ exact EP | ]. split; [ reflexivity | ]. rewrite <- Hk. now destruct (fr_src r'). }
  destruct (data_opens _ _ _ _ _ _ (proj1 Ha) Hb Hf Hr) as (rd & (Hw & _ & Hrd & _ & Hfit) & _).
  apply flaky_history_app in H as ((i1, p1) & H1 & H2); [ | exact L1 ]. inversion H2 as [ | ? ? ? ? ? (i2, p2) ? St H3 ]; subst. apply flaky_history_app in H3 as ((i3, p3) & H4 & H5); [ | exact L2 ].
  apply (flaky_history_behind c t _ rd) in H1; auto. apply (flaky_behind c t _ rd) in St as (_ & St); auto. specialize (St eq_refl (ex_intro _ e eq_refl)). apply (flaky_history_behind c t _ rd) in H4; auto. fold z in H1, St, H4.
  inversion H5 as [ | ? ? ? ? ? ? ? St2 ]; subst. inversion St2 as [ ? ? ? ? St3 | | | | ]; subst. inversion St3 as [ | | | | | ? ? ? q ? ? Hj Hq A | | | | | ]; subst. inversion A as [ b rest v' Hi Hl Hd | | ]; subst.
  exists q, b, rest. fold z in Hq. split; [ nia | ]. auto.
Qed.

(** * Failed moves *)
Lemma fill_steady plan : steady plan -> forall want s acc, exists g s' plan', fill_flaky want s plan acc = (g, s', plan') /\ steady plan' /\ (forall e, g <> Broken e).
Proof.
  unfold steady. induction plan as [ | h plan IH ]; intros Hs want s acc; cbn [fill_flaky]; destruct (want =? 0).
  - eexists _, _, _. split; [ reflexivity | ]. split; [ exact Hs | discriminate ].
  - destruct (want <=? lenN (cur_rest s)); eexists _, _, _; (split; [ reflexivity | ]); (split; [ exact Hs | discriminate ]).
  - eexists _, _, _. split; [ reflexivity | ]. split; [ exact Hs | discriminate ].
  - apply Forall_cons_iff in Hs as (Hh & Hs). destruct h as [ n | | e ]; [ | apply IH; exact Hs | contradiction ]. cbv zeta. destruct (_ =? 0); [ | apply IH; exact Hs ].
    eexists _, _, _. split; [ reflexivity | ]. split; [ exact Hs | discriminate ].
Qed.
Lemma run_steady {A} (p : rprog A) : forall s plan, steady plan -> exists plan', steady plan' /\ run_flaky p s plan = (Done (fst (run_cursor p s)), snd (run_cursor p s), plan').
Proof.
  assert (F : forall (q : rprog A) s plan, steady plan -> exists x s' plan', run_flaky q s plan = (x, s', plan') /\ steady plan' /\ (forall e, x <> M_Source.Failed e)).
  { induction q as [ a | er | | n eof k IH ]; intros s plan Hs; cbn [run_flaky]; try (eexists _, _, _; split; [ reflexivity | split; [ exact Hs | discriminate ] ]).
    destruct (fill_steady plan Hs n s []) as (g & s' & plan' & -> & Hs' & G). destruct g as [ bs | | e ]; [ now apply IH | | now destruct (G e) ].
    eexists _, _, _. split; [ reflexivity | ]. split; [ exact Hs' | discriminate ]. }
  intros s plan Hs. destruct (F p s plan Hs) as (x & s' & plan' & E & Hs' & N). exists plan'. split; [ exact Hs' | ].
  destruct (run_flaky_spec p s plan) as [ (plan2 & E2) | (k & e & plan2 & E2 & _) ]; rewrite E in E2.
  - rewrite E. assert (plan' = plan2) by congruence. subst plan2. rewrite E2. unfold run_cursor, used, advance. destruct (run p (cur_rest s)) as (y, rest). reflexivity.
  - exfalso. apply (N e). congruence.
Qed.
Lemma next_steady c r reads seeks : steady reads -> exists reads', steady reads' /\ fr_next c (with_plans reads seeks r) = (option_map Done (fst (nr_next c r)), with_plans reads' seeks (snd (nr_next c r))).
Proof.
  intros Hs. unfold fr_next, nr_next, nr_total_len. cbn [with_plans fr_index fr_header fr_type fr_src fr_reads fr_seeks]. destruct (nr_index r <? h_n_records (nr_header r)).
  - destruct (run_steady (read_one c (nr_type r)) (nr_src r) reads Hs) as (reads' & Hs' & ->). exists reads'. split; [ exact Hs' | ]. destruct (run_cursor (read_one c (nr_type r)) (nr_src r)) as (v, s'). reflexivity.
  - exists reads. split; [ exact Hs | reflexivity ].
Qed.
Lemma one_steady c k r reads seeks : steady reads -> exists reads' seeks', steady reads' /\
  (flaky_one c k (with_plans reads seeks r) = (Told (fst (perform_one c k r)), with_plans reads' seeks' (snd (perform_one c k r)))
   \/ exists e, flaky_one c k (with_plans reads seeks r) = (SourceError e, with_plans reads' seeks' r)).
Proof.
  intros Hs. destruct k as [ | j | j | | ]; cbn [flaky_one perform_one].
  - destruct (next_steady c r reads seeks Hs) as (reads' & Hs' & ->). exists reads', seeks. split; [ exact Hs' | ]. left. destruct (nr_next c r) as ([ x | ], r'); reflexivity.
  - destruct (flaky_seek c j r reads seeks) as [ (seeks' & ->) | (e & seeks' & -> & _) ]; exists reads, seeks'; (split; [ exact Hs | ]); [ left | right; eauto ].
    destruct (nr_seek_to c j r) as ([ [] | e | ], r'); reflexivity.
  - unfold fr_read_at, nr_read_at, nr_total_len. cbn [with_plans fr_header]. destruct (h_n_records (nr_header r) <=? j); [ exists reads, seeks; split; [ exact Hs | now left ] | ].
    change {| fr_header := nr_header r; fr_type := nr_type r; fr_src := nr_src r; fr_reads := reads; fr_seeks := seeks; fr_index := nr_index r |} with (with_plans reads seeks r).
    destruct (flaky_seek c j r reads seeks) as [ (seeks' & ->) | (e & seeks' & -> & _) ]; [ | exists reads, seeks'; split; [ exact Hs | right; exists e; reflexivity ] ].
    destruct (nr_seek_to c j r) as ([ [] | e | ], r'); cbn [fst snd]; try (exists reads, seeks'; split; [ exact Hs | left; reflexivity ]).
    destruct (next_steady c r' reads seeks' Hs) as (reads' & Hs' & ->). exists reads', seeks'. split; [ exact Hs' | left ]. destruct (nr_next c r') as ([ x | ], r''); reflexivity.
  - exists reads, seeks. split; [ exact Hs | left ]. change {| nr_header := _ |} with {| nr_header := nr_header r; nr_type := nr_type r; nr_src := nr_src r; nr_index := nr_index r |}. destruct r. cbn [with_plans]. cbn. destruct (nr_len _ _); reflexivity.
  - exists reads, seeks. split; [ exact Hs | left ]. destruct r. cbn. destruct (nr_size_hint _ _) as [ (a, b) | | ]; reflexivity.
Qed.
Lemma failed_moves c ks : forall r reads seeks, steady reads ->
  let '(calls, answers) := answered ks (fst (flaky_perform c ks (with_plans reads seeks r))) in fst (perform c calls r) = answers.
Proof.
  induction ks as [ | k ks IH ]; intros r reads seeks Hs; cbn [flaky_perform fst answered]; [ reflexivity | ].
  destruct (one_steady c k r reads seeks Hs) as (reads' & seeks' & Hs' & [ E | (e & E) ]); rewrite E.
  - specialize (IH (snd (perform_one c k r)) reads' seeks' Hs'). destruct (flaky_perform c ks _) as (ss, q). cbn [fst answered] in *. destruct (answered ks ss) as (calls, answers). cbn [perform].
    destruct (perform_one c k r) as (s, r'). cbn [fst snd] in *. destruct (perform c calls r') as (ss', r''). cbn [fst] in *. congruence.
  - specialize (IH r reads' seeks' Hs'). destruct (flaky_perform c ks _) as (ss, q). cbn [fst answered] in *. exact IH.
Qed.
