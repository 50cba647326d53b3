(** Writing through a buffer. *)
From Verif Require Import M_Base M_Text M_TypeStr M_PyLit M_IO M_Header M_Read M_Serialize M_DTypeErr M_Write S_Write M_Buffered P_Base P_Sink.
Require Import ZifyBool ZifyNat ZifyN.
Open Scope N_scope.

(** * The programs are the writer's functions *)
Lemma run_sink_bind {A B} (p : wprog A) (f : A -> wprog B) : forall s,
  run_sink (wbind p f) s = match run_sink p s with (Ok a, s') => run_sink (f a) s' | (Err e, s') => (Err e, s') | (Panic, s') => (Panic, s') end.
Proof.
  induction p as [ r | bs k IH | k IH | q k IH | k IH ]; intros s; cbn [wbind run_sink].
  - destruct r; reflexivity.
  - destruct (sink_write bs s) as ([ | | ], s'); auto.
  - destruct (sink_tell s) as ([ | | ], s'); auto.
  - destruct (sink_seek q s) as ([ | | ], s'); auto.
  - destruct (sink_flush s) as ([ | | ], s'); auto.
Qed.
Lemma write_header_same c d o h s : run_sink (write_header_p c d o h) s = write_header c d o h s.
Proof.
  assert (G : forall d', run_sink (wbind (WRet (create_dict c d' o h)) (fun di =>
    wbind (WRet (determine_required_version_and_pad_header (fst di))) (fun hvp =>
    let '(txt, version, props) := hvp in
    WWrite [0x93] (WWrite (lit "NUMPY") (WWrite [fst version; snd version] (
    if negb ((lenN txt + bytes_before_text props) mod 16 =? 0) then WRet Panic
    else
      let rest := WWrite txt (WRet (Ok (snd di, props))) in
      if vp_u32 props then (if lenN txt <=? 2 ^ 32 - 1 then WWrite (le_bytes 4 (lenN txt)) rest else WRet Panic)
      else (if lenN txt <=? 2 ^ 16 - 1 then WWrite (le_bytes 2 (lenN txt)) rest else WRet Panic))))))) s
    = (let@ di := sret (create_dict c d' o h) in
    let@ hvp := sret (determine_required_version_and_pad_header (fst di)) in
    let '(txt, version, props) := hvp in
    let@ _u := sink_write [0x93] in
    let@ _u := sink_write (lit "NUMPY") in
    let@ _u := sink_write [fst version; snd version] in
    if negb ((lenN txt + bytes_before_text props) mod 16 =? 0) then sret Panic
    else
      let@ _u :=
        (if vp_u32 props then
           (if lenN txt <=? 2 ^ 32 - 1 then sink_write (le_bytes 4 (lenN txt)) else sret Panic)
         else
           (if lenN txt <=? 2 ^ 16 - 1 then sink_write (le_bytes 2 (lenN txt)) else sret Panic)) in
      let@ _u := sink_write txt in
      sret (Ok (snd di, props))) s).
  { intros d'. unfold sbind, sret. cbn [wbind]. destruct (create_dict c d' o h) as [ di | e | ]; [ | reflexivity | reflexivity ].
    destruct (determine_required_version_and_pad_header (fst di)) as [ ((txt, version), props) | e | ]; [ | reflexivity | reflexivity ].
    cbn [run_sink]. destruct (sink_write [147] s) as ([ | | ], s1); auto. destruct (sink_write (lit "NUMPY") s1) as ([ | | ], s2); auto.
    destruct (sink_write [fst version; snd version] s2) as ([ | | ], s3); auto. destruct (negb _); [ reflexivity | ].
    destruct (vp_u32 props); destruct (_ <=? _); cbn [run_sink]; try reflexivity;
      match goal with |- context [ sink_write ?x s3 ] => destruct (sink_write x s3) as ([ | | ], s4) end; auto; destruct (sink_write txt s4) as ([ | | ], s5); reflexivity. }
  unfold write_header_p, write_header. destruct d; [ apply G | reflexivity | apply G ].
Qed.
Lemma begin_same c t d o h seekable s : run_sink (begin_p c t d o h seekable) s = begin_ c t d o h seekable s.
Proof.
  assert (G : forall sp s, run_sink (wbind (write_header_p c d o h) (fun ip => match writer c t d with
    | DErr e => WRet (Err (EData (dterr_display e)))
    | DOk tw => WRet (Ok {| w_start_pos := sp; w_shape_info := fst ip; w_num_items := 0; w_seekable := seekable; w_writer := tw; w_version_props := snd ip |}) end)) s
    = (let@ ip := write_header c d o h in match writer c t d with
    | DErr e => sret (Err (EData (dterr_display e)))
    | DOk tw => sret (Ok {| w_start_pos := sp; w_shape_info := fst ip; w_num_items := 0; w_seekable := seekable; w_writer := tw; w_version_props := snd ip |}) end) s).
  { intros sp s0. rewrite run_sink_bind, write_header_same. unfold sbind, sret. destruct (write_header c d o h s0) as ([ ip | e | ], s'); auto. destruct (writer c t d); reflexivity. }
  unfold begin_p, begin_. unfold sbind at 1. destruct seekable.
  - cbn [run_sink]. unfold sbind at 1, sret at 1. destruct (sink_tell s) as ([ n | e | ], s'); first [ apply G | reflexivity ].
  - unfold sret at 1. apply G.
Qed.
Lemma patch_same w off txt k s : run_sink (patch_p w off txt k) s = sbind (patch w off txt) (fun _ => run_sink k) s.
Proof.
  unfold patch_p, patch, ms_tell, ms_seek, sbind, sret. destruct (w_start_pos w); [ | reflexivity ]. destruct (w_seekable w); [ | reflexivity ]. cbn [run_sink].
  destruct (sink_tell s) as ([ n' | e | ], s1); auto. destruct (sink_seek _ s1) as ([ u | e | ], s2); auto. destruct txt as [ bs | e | ]; [ | reflexivity | reflexivity ]. cbn [wbind run_sink].
  destruct (sink_write bs s2) as ([ u' | e | ], s3); reflexivity.
Qed.
Lemma finish_same w s : run_sink (finish_p w) s = finish_ w s.
Proof.
  assert (F : forall s0, run_sink (WFlush (WRet (Ok tt))) s0 = sink_flush s0) by (intros s0; cbn [run_sink]; destruct (sink_flush s0) as ([ [] | | ], s'); reflexivity).
  assert (P : forall off txt, run_sink (patch_p w off txt (WFlush (WRet (Ok tt)))) s = (let@ _u := patch w off txt in sink_flush) s).
  { intros off txt. rewrite patch_same. unfold sbind. destruct (patch w off txt s) as ([ | | ], s'); auto. }
  unfold finish_p, finish_. destruct (w_shape_info w) as [ off | off rl o | n ].
  - apply P.
  - destruct (rl =? 0); [ reflexivity | ]. destruct (negb _); [ reflexivity | ]. apply P.
  - destruct (negb _); [ reflexivity | ]. apply F.
Qed.
Lemma push_same c v w s : push_on (@run_sink) c v w s = push c v w s.
Proof.
  unfold push_on, push, sbind, sret. destruct (u64_add c (w_num_items w) 1); [ | reflexivity | reflexivity ]. destruct (write_one c (w_writer w) v) as (bs, r). cbn [run_sink].
  all: destruct (sink_write bs s) as ([ | | ], s'); reflexivity.
Qed.
Lemma push_each_same c vs : forall w s, push_each_on (@run_sink) c vs w s = push_each c vs w s.
Proof. induction vs as [ | v vs IH ]; intros w s; cbn [push_each_on push_each]; [ reflexivity | ]. rewrite push_same. destruct (push c v w s) as ((r, w'), s'). now rewrite IH. Qed.
Lemma extend_same c vs : forall w s, extend_on (@run_sink) c vs w s = extend c vs w s.
Proof. induction vs as [ | v vs IH ]; intros w s; cbn [extend_on extend]; [ reflexivity | ]. rewrite push_same. destruct (push c v w s) as (([ | | ], w'), s'); auto. Qed.
Lemma drop_same w s : drop_on (@run_sink) w s = drop_writer w s.
Proof. unfold drop_on, drop_writer. rewrite finish_same. reflexivity. Qed.
Lemma finish_all_same w s : finish_on (@run_sink) w s = finish w s.
Proof. unfold finish_on, finish. rewrite finish_same. destruct (finish_ w s) as ([ | | ], s'); now rewrite drop_same. Qed.
Lemma session_same c t d o h k vs e s : session_on (@run_sink) c t d o h k vs e s = session c t d o h k vs e s.
Proof.
  unfold session_on, session. rewrite begin_same. destruct (begin_ c t d o h k s) as ([ w | | ], s1); auto. rewrite push_each_same. destruct (push_each c vs w s1) as ((rs, w'), s2).
  unfold ended_on, ended. destruct e; now rewrite ?finish_all_same, ?drop_same.
Qed.
Lemma write_file_same c t d o h k vs s : write_file_on (@run_sink) c t d o h k vs s = write_file c t d o h k vs s.
Proof.
  unfold write_file_on, write_file, sbind, push_all_and_finish. rewrite begin_same. destruct (begin_ c t d o h k s) as ([ w | | ], s1); auto. rewrite extend_same.
  destruct (extend c vs w s1) as (([ | | ], w'), s2); rewrite ?finish_all_same, ?drop_same; reflexivity.
Qed.

(** * One step behind *)
(** [s] is the file that had everything passed on at once. *)
Definition behind (b : buffered) (s : sink) : Prop := snd (sink_write (b_bytes b) (b_file b)) = s.
(** The file will not accept everything. *)
Definition stuck (b : buffered) : Prop := exists n, sk_fuel (b_file b) = Some n /\ (n < lenN (b_bytes b) \/ n = 0).

Lemma write_result bs s : fst (sink_write bs s) = Ok tt \/ fst (sink_write bs s) = Err ESink /\ exists n, sk_fuel s = Some n /\ n < lenN bs.
Proof.
  destruct (sk_fuel s) as [ n | ] eqn:F; [ rewrite (sink_write_some s bs n F) | rewrite (sink_write_none s bs F); auto ].
  destruct (N.leb_spec (lenN bs) n); cbn [fst]; [ auto | ]. right. split; [ reflexivity | eauto ].
Qed.
Lemma write_nil s : sink_write [] s = (Ok tt, s).
Proof.
  destruct (sk_fuel s) as [ n | ] eqn:F; [ rewrite (sink_write_some s [] n F) | rewrite (sink_write_none s [] F) ]; rewrite put_nil; destruct s; cbn in *; subst.
  - change (lenN []) with 0. rewrite N.sub_0_r. destruct (N.leb_spec 0 n); [ reflexivity | lia ].
  - reflexivity.
Qed.
Lemma write_split k bs s : sink_write bs s = (let@ _u := sink_write (takeN k bs) in sink_write (dropN k bs)) s.
Proof. rewrite sink_write_app, takeN_dropN. reflexivity. Qed.
Lemma dead_write bs s : sk_fuel s = Some 0 -> snd (sink_write bs s) = s /\ (bs <> [] -> fst (sink_write bs s) = Err ESink).
Proof.
  intros F. destruct bs as [ | x bs ]; [ rewrite write_nil; split; [ reflexivity | congruence ] | ]. rewrite (sink_write_some s _ 0 F). rewrite lenN_cons.
  destruct (N.leb_spec (lenN bs + 1) 0); try lia; destruct (N.leb_spec (1 + lenN bs) 0); try lia; rewrite takeN_0, put_nil; destruct s; cbn in *; subst; auto.
Qed.
Lemma dead_tick s : sk_fuel s = Some 0 -> sink_tick s = (Err ESink, s).
Proof. intros F. unfold sink_tick. now rewrite F. Qed.
Lemma dead_tell s : sk_fuel s = Some 0 -> sink_tell s = (Err ESink, s).
Proof. intros F. unfold sink_tell. now rewrite dead_tick. Qed.
Lemma dead_seek p s : sk_fuel s = Some 0 -> sink_seek p s = (Err ESink, s).
Proof. intros F. unfold sink_seek. now rewrite dead_tick. Qed.
Lemma frozen {A} (p : wprog A) : forall s, sk_fuel s = Some 0 -> snd (run_sink p s) = s.
Proof.
  induction p as [ r | bs k IH | k IH | q k IH | k IH ]; intros s F; cbn [run_sink].
  - reflexivity.
  - destruct (dead_write bs s F) as (H & _). destruct (sink_write bs s) as ([ | | ], s'); cbn [snd] in *; subst s'; auto.
  - now rewrite dead_tell.
  - now rewrite dead_seek.
  - unfold sink_flush. now rewrite dead_tick.
Qed.

(** More bytes than the file accepts. *)
Definition over (b : buffered) : Prop := exists n, sk_fuel (b_file b) = Some n /\ n < lenN (b_bytes b).
Lemma over_stuck b : over b -> stuck b.
Proof. intros (n & H & L). exists n. auto. Qed.
Lemma stuck_dead b s : behind b s -> stuck b -> sk_fuel s = Some 0.
Proof.
  intros <- (n & F & H). rewrite (sink_write_some _ _ n F). destruct (N.leb_spec (lenN (b_bytes b)) n); cbn [snd put sk_fuel]; [ f_equal; lia | reflexivity ].
Qed.
Lemma write_pos bs s r s' : sink_write bs s = (r, s') -> exists k, s' = put s (takeN k bs) (sk_fuel s') /\ (r = Ok tt -> takeN k bs = bs) /\ (r <> Ok tt -> sk_fuel s' = Some 0).
Proof.
  destruct (sk_fuel s) as [ n | ] eqn:F; [ rewrite (sink_write_some s bs n F) | rewrite (sink_write_none s bs F) ].
  - destruct (lenN bs <=? n); intros [= <- <-]; [ exists (lenN bs); rewrite takeN_all by lia | exists n ]; repeat split; try congruence.
  - intros [= <- <-]. exists (lenN bs). rewrite takeN_all by lia. repeat split; congruence.
Qed.
Lemma pass_on_ok k b s : behind b s ->
  (exists b', pass_on k b = (Ok tt, b') /\ behind b' s /\ b_bytes b' = dropN k (b_bytes b) /\ b_policy b' = b_policy b /\ (stuck b -> stuck b') /\ (over b <-> over b'))
  \/ (exists b', pass_on k b = (Err ESink, b') /\ behind b' s /\ over b /\ stuck b').
Proof.
  intros Hb. unfold pass_on. destruct (sink_write (takeN k (b_bytes b)) (b_file b)) as (r, f) eqn:E.
  pose proof (write_result (takeN k (b_bytes b)) (b_file b)) as Hr. rewrite E in Hr. cbn [fst] in Hr.
  unfold behind in Hb. rewrite (write_split k) in Hb. unfold sbind in Hb. rewrite E in Hb.
  pose proof (lenN_takeN k (b_bytes b)) as Hl. pose proof (lenN_dropN k (b_bytes b)) as Hl'.
  destruct (write_pos _ _ _ _ E) as (j & Hf & H1 & H2). destruct Hr as [ -> | (-> & n & F & Hn) ].
  - left. rewrite (H1 eq_refl) in Hf. assert (Hd : sk_pos f - sk_pos (b_file b) = lenN (takeN k (b_bytes b))) by (rewrite Hf; unfold put; cbn [sk_pos]; lia).
    assert (Hdr : dropN (sk_pos f - sk_pos (b_file b)) (b_bytes b) = dropN k (b_bytes b)).
    { rewrite Hd, Hl. destruct (N.le_ge_cases k (lenN (b_bytes b))); [ f_equal; lia | rewrite !dropN_all by lia; reflexivity ]. }
    eexists. split; [ reflexivity | ]. rewrite Hdr. split; [ exact Hb | ]. cbn [b_bytes b_policy]. split; [ reflexivity | ]. split; [ reflexivity | ].
    assert (Hfu : forall n, sk_fuel (b_file b) = Some n -> lenN (takeN k (b_bytes b)) <= n /\ sk_fuel f = Some (n - lenN (takeN k (b_bytes b)))).
    { intros n Hn. rewrite (sink_write_some _ _ n Hn) in E. destruct (N.leb_spec (lenN (takeN k (b_bytes b))) n); [ | discriminate ]. apply pair_inj in E as (_ & <-). cbn [put sk_fuel]. auto. }
    assert (Hnf : sk_fuel (b_file b) = None -> sk_fuel f = None) by (intros Hn; rewrite (sink_write_none _ _ Hn) in E; apply pair_inj in E as (_ & <-); reflexivity).
    split; [ | split ].
    + intros (n & Hn & Hs). destruct (Hfu n Hn) as (G1 & G2). exists (n - lenN (takeN k (b_bytes b))). cbn [b_file b_bytes]. split; [ exact G2 | lia ].
    + intros (n & Hn & Hs). destruct (Hfu n Hn) as (G1 & G2). exists (n - lenN (takeN k (b_bytes b))). cbn [b_file b_bytes]. split; [ exact G2 | lia ].
    + intros (n' & Hn' & Hs). cbn [b_file b_bytes] in *. destruct (sk_fuel (b_file b)) as [ n | ] eqn:En; [ | rewrite (Hnf eq_refl) in Hn'; discriminate ].
      destruct (Hfu n eq_refl) as (G1 & G2). rewrite G2 in Hn'. injection Hn' as <-. exists n. split; [ exact En | lia ].
  - right. eexists. split; [ reflexivity | ]. assert (F' : sk_fuel f = Some 0) by (apply H2; discriminate). split; [ | split ].
    + unfold behind. cbn [b_file b_bytes]. rewrite <- Hb. apply (dead_write _ f F').
    + exists n. split; [ exact F | lia ].
    + exists 0. cbn [b_file]. auto.
Qed.

(** A write, as the file sees it and as the buffer does. *)
Definition append (bs : bytes) (b : buffered) : buffered := {| b_file := b_file b; b_bytes := b_bytes b ++ bs; b_calls := b_calls b + 1; b_policy := b_policy b |}.
Lemma append_behind bs b s : behind b s -> behind (append bs b) (snd (sink_write bs s)).
Proof.
  intros <-. unfold behind, append. cbn [b_file b_bytes]. rewrite <- sink_write_app. unfold sbind. destruct (sink_write (b_bytes b) (b_file b)) as (r, f) eqn:E.
  destruct (write_pos _ _ _ _ E) as (j & _ & _ & H2). pose proof (write_result (b_bytes b) (b_file b)) as Hr. rewrite E in Hr. cbn [fst snd] in *.
  destruct Hr as [ -> | (-> & _) ]; [ reflexivity | ]. symmetry. apply dead_write, H2. discriminate.
Qed.
Lemma append_stuck bs b : stuck b -> stuck (append bs b).
Proof. intros (n & F & H). exists n. cbn [append b_file b_bytes]. rewrite lenN_app. split; [ exact F | lia ]. Qed.
Lemma append_over bs b s : ~ over b -> behind b s -> (fst (sink_write bs s) = Ok tt /\ ~ over (append bs b)) \/ (fst (sink_write bs s) = Err ESink /\ over (append bs b)).
Proof.
  intros Ho Hb. unfold over, append in *. cbn [b_file b_bytes] in *. rewrite lenN_app. unfold behind in Hb. destruct (sk_fuel (b_file b)) as [ n | ] eqn:F.
  - assert (L : lenN (b_bytes b) <= n) by (destruct (N.le_gt_cases (lenN (b_bytes b)) n); [ auto | exfalso; apply Ho; eauto ]).
    rewrite (sink_write_some _ _ n F) in Hb. destruct (N.leb_spec (lenN (b_bytes b)) n); [ | lia ]. cbn [snd] in Hb.
    assert (F' : sk_fuel s = Some (n - lenN (b_bytes b))) by (now rewrite <- Hb). rewrite (sink_write_some s bs _ F'). destruct (N.leb_spec (lenN bs) (n - lenN (b_bytes b))); cbn [fst].
    + left. split; [ reflexivity | ]. intros (n' & [= <-] & Hn). lia.
    + right. split; [ reflexivity | ]. exists n. split; [ reflexivity | lia ].
  - rewrite (sink_write_none _ _ F) in Hb. cbn [snd] in Hb. assert (F' : sk_fuel s = None) by (now rewrite <- Hb). rewrite (sink_write_none s bs F'). left. split; [ reflexivity | ].
    intros (n & [=] & _).
Qed.

(** Anything but a write empties the buffer first. *)
Definition honest {A} (f : sink -> res A * sink) : Prop := forall s, sk_fuel s = Some 0 -> f s = (Err ESink, s).
Lemma honest_tell : honest sink_tell. Proof. exact dead_tell. Qed.
Lemma honest_seek p : honest (sink_seek p). Proof. exact (dead_seek p). Qed.
Lemma honest_flush : honest sink_flush. Proof. exact dead_tick. Qed.
Lemma then_spec {A} (f : sink -> res A * sink) b s : honest f -> behind b s ->
  (exists b', buffered_then f b = (fst (f s), b') /\ b_file b' = snd (f s) /\ b_bytes b' = [])
  \/ (exists b', buffered_then f b = (Err ESink, b') /\ behind b' s /\ over b /\ stuck b' /\ f s = (Err ESink, s)).
Proof.
  intros Hf Hb. unfold buffered_then, flush_buffer. destruct (pass_on_ok (lenN (b_bytes b)) b s Hb) as [ (b' & E & Hb' & Hd & Hp & _) | (b' & E & Hb' & Ho & Hs) ]; rewrite E.
  - left. rewrite dropN_all in Hd by lia. unfold behind in Hb'. rewrite Hd, write_nil in Hb'. cbn [snd] in Hb'. rewrite Hb'. destruct (f s) as (r, s'). eexists. split; [ reflexivity | ]. auto.
  - right. exists b'. split; [ reflexivity | ]. split; [ exact Hb' | ]. split; [ exact Ho | ]. split; [ exact Hs | ]. apply Hf. eapply stuck_dead; eauto using over_stuck.
Qed.
Lemma empty_behind b s : b_file b = s -> b_bytes b = [] -> behind b s /\ ~ over b.
Proof.
  intros H1 H2. split; [ unfold behind; now rewrite H2, write_nil | ]. intros (n & _ & L). rewrite H2 in L. change (lenN []) with 0 in L. lia.
Qed.
Lemma stuck_then {A} (f : sink -> res A * sink) b s : honest f -> behind b s -> stuck b -> exists b', buffered_then f b = (Err ESink, b') /\ behind b' s /\ stuck b'.
Proof.
  intros Hf Hb Hs. pose proof (stuck_dead b s Hb Hs) as F. destruct (then_spec f b s Hf Hb) as [ (b' & E & H1 & H2) | (b' & E & H1 & _ & H2 & _) ]; [ | eauto ].
  rewrite (Hf s F) in *. cbn [fst snd] in *. exists b'. split; [ exact E | ]. destruct (empty_behind b' s H1 H2) as (H3 & _). split; [ exact H3 | ]. exists 0. split; [ now rewrite H1 | auto ].
Qed.

(** * Programs *)
Lemma behind_run {A} (p : wprog A) : forall b s, behind b s -> behind (snd (run_buffered p b)) (snd (run_sink p s)) /\ (stuck b -> stuck (snd (run_buffered p b))).
Proof.
  assert (X : forall B (f : sink -> res B * sink) (k : B -> wprog A), honest f ->
    (forall x b s, behind b s -> behind (snd (run_buffered (k x) b)) (snd (run_sink (k x) s)) /\ (stuck b -> stuck (snd (run_buffered (k x) b)))) ->
    forall b s, behind b s ->
    behind (snd (match buffered_then f b with (Ok n, b') => run_buffered (k n) b' | (Err e, b') => (Err e, b') | (Panic, b') => (Panic, b') end))
           (snd (match f s with (Ok n, s') => run_sink (k n) s' | (Err e, s') => (Err e, s') | (Panic, s') => (Panic, s') end))
    /\ (stuck b -> stuck (snd (match buffered_then f b with (Ok n, b') => run_buffered (k n) b' | (Err e, b') => (Err e, b') | (Panic, b') => (Panic, b') end)))).
  { intros B f k Hf IH b s Hb. split.
    - destruct (then_spec f b s Hf Hb) as [ (b' & E & H1 & H2) | (b' & E & H1 & _ & _ & E') ]; rewrite E; [ | rewrite E'; exact H1 ].
      destruct (f s) as ([ x | e | ], s'); cbn [fst snd] in *; destruct (empty_behind b' s' H1 H2) as (H3 & _); auto. now apply IH.
    - intros Hs. destruct (stuck_then f b s Hf Hb Hs) as (b' & E & H1 & H2). rewrite E. exact H2. }
  induction p as [ r | bs k IH | k IH | q k IH | k IH ]; intros b s Hb; cbn [run_sink run_buffered].
  - auto.
  - unfold buffered_write. fold (append bs b). pose proof (append_behind bs b s Hb) as Ha. split.
    + destruct (pass_on_ok (b_policy b (b_calls b) (lenN (b_bytes b)) (lenN bs)) _ _ Ha) as [ (b' & E & H1 & _ & _ & Hs & _) | (b' & E & H1 & Ho & Hs) ]; rewrite E.
      * destruct (sink_write bs s) as ([ u | e | ], s') eqn:Ew; cbn [snd] in *; [ now apply IH | | ].
        -- destruct (write_pos _ _ _ _ Ew) as (j & _ & _ & F). rewrite <- (frozen k s') at 1 by (apply F; discriminate). now apply IH.
        -- destruct (write_pos _ _ _ _ Ew) as (j & _ & _ & F). rewrite <- (frozen k s') at 1 by (apply F; discriminate). now apply IH.
      * pose proof (stuck_dead _ _ Ha (over_stuck _ Ho)) as F. destruct (sink_write bs s) as ([ u | e | ], s') eqn:Ew; cbn [snd] in *; auto. rewrite frozen; auto.
    + intros Hs. apply (append_stuck bs) in Hs. destruct (pass_on_ok (b_policy b (b_calls b) (lenN (b_bytes b)) (lenN bs)) _ _ Ha) as [ (b' & E & H1 & _ & _ & Hs' & _) | (b' & E & _ & _ & Hs') ]; rewrite E; [ | exact Hs' ].
      destruct (IH b' _ H1) as (_ & H). auto.
  - apply (X N sink_tell k); auto using honest_tell.
  - apply (X unit (sink_seek q) (fun _ => k)); auto using honest_seek.
  - apply (X unit sink_flush (fun _ => k)); auto using honest_flush.
Qed.
(** While everything is accepted the results are the same. *)
Lemma same_run {A} (p : wprog A) : forall b s, behind b s -> ~ over b ->
  (fst (run_sink p s) = fst (run_buffered p b) /\ ~ over (snd (run_buffered p b))) \/ (fst (run_sink p s) = Err ESink /\ stuck (snd (run_buffered p b))).
Proof.
  assert (X : forall B (f : sink -> res B * sink) (k : B -> wprog A), honest f ->
    (forall x b s, behind b s -> ~ over b ->
      (fst (run_sink (k x) s) = fst (run_buffered (k x) b) /\ ~ over (snd (run_buffered (k x) b))) \/ (fst (run_sink (k x) s) = Err ESink /\ stuck (snd (run_buffered (k x) b)))) ->
    forall b s, behind b s -> ~ over b ->
    (fst (match f s with (Ok n, s') => run_sink (k n) s' | (Err e, s') => (Err e, s') | (Panic, s') => (Panic, s') end)
     = fst (match buffered_then f b with (Ok n, b') => run_buffered (k n) b' | (Err e, b') => (Err e, b') | (Panic, b') => (Panic, b') end)
     /\ ~ over (snd (match buffered_then f b with (Ok n, b') => run_buffered (k n) b' | (Err e, b') => (Err e, b') | (Panic, b') => (Panic, b') end)))
    \/ (fst (match f s with (Ok n, s') => run_sink (k n) s' | (Err e, s') => (Err e, s') | (Panic, s') => (Panic, s') end) = Err ESink
        /\ stuck (snd (match buffered_then f b with (Ok n, b') => run_buffered (k n) b' | (Err e, b') => (Err e, b') | (Panic, b') => (Panic, b') end)))).
  { intros B f k Hf IH b s Hb Ho. destruct (then_spec f b s Hf Hb) as [ (b' & E & H1 & H2) | (b' & E & H1 & Ho' & _ & E') ]; [ | contradiction ]. rewrite E.
    destruct (f s) as ([ x | e | ], s'); cbn [fst snd] in *; destruct (empty_behind b' s' H1 H2) as (H3 & H4); auto. }
  induction p as [ r | bs k IH | k IH | q k IH | k IH ]; intros b s Hb Ho; cbn [run_sink run_buffered].
  - auto.
  - unfold buffered_write. fold (append bs b). pose proof (append_behind bs b s Hb) as Ha. destruct (append_over bs b s Ho Hb) as [ (Ew & Ho') | (Ew & Ho') ].
    + destruct (pass_on_ok (b_policy b (b_calls b) (lenN (b_bytes b)) (lenN bs)) _ _ Ha) as [ (b' & E & H1 & _ & _ & _ & Hs) | (b' & E & H1 & Ho'' & Hs) ]; [ | contradiction ]. rewrite E.
      destruct (sink_write bs s) as (r, s'); cbn [fst snd] in *; subst r. apply IH; [ exact H1 | tauto ].
    + right. destruct (sink_write bs s) as (r, s'); cbn [fst snd] in *; subst r. split; [ reflexivity | ].
      destruct (pass_on_ok (b_policy b (b_calls b) (lenN (b_bytes b)) (lenN bs)) _ _ Ha) as [ (b' & E & H1 & _ & _ & Hs & _) | (b' & E & H1 & _ & Hs) ]; rewrite E; [ | exact Hs ].
      destruct (behind_run k b' s' H1) as (_ & H). apply H, Hs. now apply over_stuck.
  - apply (X N sink_tell k); auto using honest_tell.
  - apply (X unit (sink_seek q) (fun _ => k)); auto using honest_seek.
  - apply (X unit sink_flush (fun _ => k)); auto using honest_flush.
Qed.

(** Programs that do something other than write between their last write and success. *)
Fixpoint synced {A} (dirty : bool) (p : wprog A) : Prop :=
  match p with
  | WRet (Ok _) => dirty = false
  | WRet _ => True
  | WWrite _ k => synced true k
  | WTell k => forall n, synced false (k n)
  | WSeek _ k => synced false k
  | WFlush k => synced false k
  end.
Lemma finish_synced w : synced true (finish_p w).
Proof.
  assert (P : forall off txt, synced true (patch_p w off txt (WFlush (WRet (Ok tt))))).
  { intros off txt. unfold patch_p. destruct (w_start_pos w); [ | exact I ]. destruct (w_seekable w); [ | exact I ]. destruct txt; cbn [wbind synced]; auto. }
  unfold finish_p. destruct (w_shape_info w) as [ off | off rl o | n ]; [ apply P | | ].
  - destruct (rl =? 0); [ exact I | ]. destruct (negb _); [ exact I | apply P ].
  - destruct (negb _); [ exact I | reflexivity ].
Qed.
Lemma stuck_synced {A} (p : wprog A) : forall b s, behind b s -> stuck b -> synced true p -> forall a, fst (run_buffered p b) <> Ok a.
Proof.
  induction p as [ r | bs k IH | k IH | q k IH | k IH ]; intros b s Hb Hs Hp a; cbn [run_buffered synced] in *.
  - destruct r; [ discriminate Hp | discriminate | discriminate ].
  - unfold buffered_write. fold (append bs b). pose proof (append_behind bs b s Hb) as Ha. apply (append_stuck bs) in Hs.
    destruct (pass_on_ok (b_policy b (b_calls b) (lenN (b_bytes b)) (lenN bs)) _ _ Ha) as [ (b' & E & H1 & _ & _ & Hs' & _) | (b' & E & _ & _ & _) ]; rewrite E; [ | discriminate ]. eapply IH; eauto.
  - destruct (stuck_then sink_tell b s honest_tell Hb Hs) as (b' & E & _). rewrite E. discriminate.
  - destruct (stuck_then (sink_seek q) b s (honest_seek q) Hb Hs) as (b' & E & _). rewrite E. discriminate.
  - destruct (stuck_then sink_flush b s honest_flush Hb Hs) as (b' & E & _). rewrite E. discriminate.
Qed.
Lemma dead_synced {A} (p : wprog A) : forall s, sk_fuel s = Some 0 -> synced true p -> forall a, fst (run_sink p s) <> Ok a.
Proof.
  induction p as [ r | bs k IH | k IH | q k IH | k IH ]; intros s F Hp a; cbn [run_sink synced] in *.
  - destruct r; [ discriminate Hp | discriminate | discriminate ].
  - destruct (dead_write bs s F) as (H & _). destruct (sink_write bs s) as ([ | | ], s'); cbn [fst snd] in *; subst; [ now apply IH | discriminate | discriminate ].
  - rewrite dead_tell; [ discriminate | auto ].
  - rewrite dead_seek; [ discriminate | auto ].
  - unfold sink_flush. rewrite dead_tick; [ discriminate | auto ].
Qed.
Lemma synced_weak {A} (p : wprog A) : synced true p -> synced false p.
Proof. destruct p as [ [ | | ] | | | | ]; cbn [synced]; auto. Qed.

(** * Sessions *)
Notation buf_run := (@run_buffered).
Notation direct := (@run_sink).
Lemma push_sim c v w b s : behind b s ->
  let '(r, w1, s') := push_on direct c v w s in
  let '(r', w2, b') := push_on buf_run c v w b in
  w1 = w2 /\ behind b' s' /\ (stuck b -> stuck b') /\ (~ over b -> (r = r' /\ ~ over b') \/ (r = Err ESink /\ stuck b')).
Proof.
  intros Hb. unfold push_on. destruct (u64_add c (w_num_items w) 1) as [ n | e | ]; [ | repeat split; auto | repeat split; auto ].
  destruct (write_one c (w_writer w) v) as (bs, r). destruct (behind_run (WWrite bs (WRet r)) b s Hb) as (H1 & H2). pose proof (same_run (WWrite bs (WRet r)) b s Hb) as H3.
  destruct (run_sink (WWrite bs (WRet r)) s) as (r1, s1). destruct (run_buffered (WWrite bs (WRet r)) b) as (r2, b2). cbn [fst snd] in *. auto.
Qed.
(** Once the file has stopped, it stays so. *)
Lemma push_each_sim c vs : forall w b s, behind b s ->
  let '(rs, w1, s') := push_each_on direct c vs w s in
  let '(rs', w2, b') := push_each_on buf_run c vs w b in
  w1 = w2 /\ behind b' s' /\ (stuck b -> stuck b') /\ (~ over b -> (rs = rs' /\ ~ over b') \/ stuck b').
Proof.
  induction vs as [ | v vs IH ]; intros w b s Hb; cbn [push_each_on]; [ repeat split; auto | ]. pose proof (push_sim c v w b s Hb) as P.
  destruct (push_on direct c v w s) as ((r, w1), s1). destruct (push_on buf_run c v w b) as ((r', w2), b1). destruct P as (<- & Hb1 & Hs & Ho).
  specialize (IH w1 b1 s1 Hb1). destruct (push_each_on direct c vs w1 s1) as ((rs, w3), s3). destruct (push_each_on buf_run c vs w1 b1) as ((rs', w4), b3).
  destruct IH as (<- & Hb3 & Hs3 & Ho3). repeat split; auto. intros Hob. destruct (Ho Hob) as [ (<- & Ho1) | (_ & H) ]; [ | auto ].
  destruct (Ho3 Ho1) as [ (<- & H) | H ]; auto.
Qed.
Lemma stuck_run {A} (p : wprog A) b s : behind b s -> stuck b -> behind (snd (run_buffered p b)) s /\ stuck (snd (run_buffered p b)).
Proof. intros Hb Hs. destruct (behind_run p b s Hb) as (H1 & H2). rewrite (frozen p s (stuck_dead b s Hb Hs)) in H1. auto. Qed.
Lemma stuck_push c v w b s : behind b s -> stuck b -> behind (snd (push_on buf_run c v w b)) s /\ stuck (snd (push_on buf_run c v w b)).
Proof.
  intros Hb Hs. unfold push_on. destruct (u64_add c (w_num_items w) 1) as [ n | e | ]; [ | auto | auto ]. destruct (write_one c (w_writer w) v) as (bs, r).
  pose proof (stuck_run (WWrite bs (WRet r)) b s Hb Hs) as H. destruct (run_buffered (WWrite bs (WRet r)) b) as (r2, b2). exact H.
Qed.
Lemma stuck_extend c vs : forall w b s, behind b s -> stuck b -> behind (snd (extend_on buf_run c vs w b)) s /\ stuck (snd (extend_on buf_run c vs w b)).
Proof.
  induction vs as [ | x vs IH ]; intros w b s Hb Hs; cbn [extend_on]; [ auto | ]. pose proof (stuck_push c x w b s Hb Hs) as P.
  destruct (push_on buf_run c x w b) as (([ u | e | ], w1), b1); cbn [snd] in P; [ apply IH; tauto | exact P | exact P ].
Qed.
Lemma extend_sim c vs : forall w b s, behind b s -> ~ over b ->
  let '(r, w1, s') := extend_on direct c vs w s in
  let '(r', w2, b') := extend_on buf_run c vs w b in
  behind b' s' /\ ((r = r' /\ w1 = w2 /\ ~ over b') \/ (r = Err ESink /\ stuck b')).
Proof.
  induction vs as [ | x vs IH ]; intros w b s Hb Hob; cbn [extend_on]; [ auto | ]. pose proof (push_sim c x w b s Hb) as P.
  destruct (push_on direct c x w s) as ((r, w1), s1). destruct (push_on buf_run c x w b) as ((r', w2), b1). destruct P as (<- & Hb1 & Hs & Ho). specialize (IH w1 b1 s1 Hb1).
  destruct (Ho Hob) as [ (<- & H) | (-> & H) ].
  - destruct r as [ u | e | ]; [ now apply IH | auto | auto ].
  - pose proof (stuck_extend c vs w1 b1 s1 Hb1 H) as K. destruct r' as [ u | e | ]; [ | auto | auto ]. destruct (extend_on buf_run c vs w1 b1) as ((r3, w3), b3). cbn [snd] in K. tauto.
Qed.
Lemma drop_sim w b s : behind b s -> behind (snd (drop_on buf_run w b)) (snd (drop_on direct w s)).
Proof.
  intros Hb. destruct (behind_run (finish_p w) b s Hb) as (H & _). unfold drop_on. destruct (run_buffered (finish_p w) b) as (r, b'), (run_sink (finish_p w) s) as (r', s').
  cbn [snd] in H. destruct r, r'; exact H.
Qed.
Lemma finish_snd {S} (exec : forall A, wprog A -> S -> res A * S) w s : snd (finish_on exec w s) = snd (drop_on exec w (snd (exec unit (finish_p w) s))).
Proof. unfold finish_on. destruct (exec unit (finish_p w) s) as ([ u | e | ], s'); cbn [snd]; [ | | reflexivity ]; destruct (drop_on exec w s') as ([ | | ], s''); reflexivity. Qed.
Lemma finish_sim w b s : behind b s -> behind (snd (finish_on buf_run w b)) (snd (finish_on direct w s)).
Proof. intros Hb. rewrite !finish_snd. apply drop_sim. apply (behind_run (finish_p w) b s Hb). Qed.
Lemma drop_sim_stuck w b s : behind b s -> stuck b -> behind (snd (drop_on buf_run w b)) s.
Proof. intros Hb Hs. pose proof (drop_sim w b s Hb) as H. replace (snd (drop_on direct w s)) with s in H; [ exact H | ]. unfold drop_on. pose proof (frozen (finish_p w) s (stuck_dead b s Hb Hs)) as F.
  destruct (run_sink (finish_p w) s) as ([ | | ], s'); cbn [snd] in *; now subst. Qed.
Lemma stuck_drop w b s : behind b s -> stuck b -> behind (snd (drop_on buf_run w b)) s /\ stuck (snd (drop_on buf_run w b)).
Proof.
  intros Hb Hs. pose proof (stuck_run (finish_p w) b s Hb Hs) as H. unfold drop_on. destruct (run_buffered (finish_p w) b) as ([ | | ], b'); exact H.
Qed.
Lemma stuck_finish w b s : behind b s -> stuck b -> behind (snd (finish_on buf_run w b)) s /\ stuck (snd (finish_on buf_run w b)).
Proof. intros Hb Hs. rewrite finish_snd. destruct (stuck_run (finish_p w) b s Hb Hs) as (H1 & H2). now apply stuck_drop. Qed.
Lemma stuck_push_each c vs : forall w b s, behind b s -> stuck b -> behind (snd (push_each_on buf_run c vs w b)) s /\ stuck (snd (push_each_on buf_run c vs w b)).
Proof.
  induction vs as [ | x vs IH ]; intros w b s Hb Hs; cbn [push_each_on]; [ auto | ]. pose proof (stuck_push c x w b s Hb Hs) as P.
  destruct (push_on buf_run c x w b) as ((r, w1), b1); cbn [snd] in P. destruct P as (P1 & P2). specialize (IH w1 b1 s P1 P2).
  destruct (push_each_on buf_run c vs w1 b1) as ((rs, w2), b2). exact IH.
Qed.
Lemma dead_drop w s : sk_fuel s = Some 0 -> snd (drop_on direct w s) = s.
Proof. intros F. unfold drop_on. pose proof (frozen (finish_p w) s F) as H. destruct (run_sink (finish_p w) s) as ([ | | ], s'); exact H. Qed.

Lemma fresh_behind pol s : behind (fresh pol s) s /\ ~ over (fresh pol s).
Proof. now apply empty_behind. Qed.
Lemma drop_behind b s : behind b s -> drop_buffer b = s.
Proof.
  intros <-. unfold drop_buffer, flush_buffer, pass_on. rewrite takeN_all by lia. destruct (sink_write (b_bytes b) (b_file b)) as (r, f). reflexivity.
Qed.

Lemma session_behind c t d o h k vs e pol s :
  behind (snd (session_on buf_run c t d o h k vs e (fresh pol s))) (snd (session_on direct c t d o h k vs e s)).
Proof.
  destruct (fresh_behind pol s) as (Hb & Ho). unfold session_on. destruct (behind_run (begin_p c t d o h k) _ s Hb) as (H1 & _). pose proof (same_run (begin_p c t d o h k) _ s Hb Ho) as H2.
  destruct (run_sink (begin_p c t d o h k) s) as (r1, s1). destruct (run_buffered (begin_p c t d o h k) (fresh pol s)) as (r2, b1). cbn [fst snd] in *. destruct H2 as [ (<- & Ho1) | (-> & Hs) ].
  - destruct r1 as [ w | e1 | ]; [ | exact H1 | exact H1 ]. pose proof (push_each_sim c vs w b1 s1 H1) as P.
    destruct (push_each_on direct c vs w s1) as ((rs, w1), s2). destruct (push_each_on buf_run c vs w b1) as ((rs', w2), b2). destruct P as (<- & P & _).
    assert (G : behind (snd (ended_on buf_run e w1 b2)) (snd (ended_on direct e w1 s2))) by (unfold ended_on; destruct e; [ now apply finish_sim | now apply drop_sim ]).
    destruct (ended_on direct e w1 s2) as (r3, s3), (ended_on buf_run e w1 b2) as (r4, b4). exact G.
  - destruct r2 as [ w | e1 | ]; [ | exact H1 | exact H1 ]. destruct (stuck_push_each c vs w b1 s1 H1 Hs) as (P1 & P2). destruct (push_each_on buf_run c vs w b1) as ((rs, w2), b2). cbn [snd] in *.
    assert (G : behind (snd (ended_on buf_run e w2 b2)) s1) by (unfold ended_on; destruct e; [ now apply stuck_finish | now apply stuck_drop ]).
    destruct (ended_on buf_run e w2 b2) as (r4, b4). exact G.
Qed.
Lemma write_file_behind c t d o h k vs pol s :
  behind (snd (write_file_on buf_run c t d o h k vs (fresh pol s))) (snd (write_file_on direct c t d o h k vs s)).
Proof.
  destruct (fresh_behind pol s) as (Hb & Ho). unfold write_file_on. destruct (behind_run (begin_p c t d o h k) _ s Hb) as (H1 & _). pose proof (same_run (begin_p c t d o h k) _ s Hb Ho) as H2.
  destruct (run_sink (begin_p c t d o h k) s) as (r1, s1). destruct (run_buffered (begin_p c t d o h k) (fresh pol s)) as (r2, b1). cbn [fst snd] in *.
  assert (D : forall (r : res unit) w b, snd (match drop_on buf_run w b with (Panic, s'') => (Panic, s'') | (_, s'') => (r, s'') end) = snd (drop_on buf_run w b)) by (intros r w b; destruct (drop_on buf_run w b) as ([ | | ], b'); reflexivity).
  assert (D' : forall (r : res unit) w b, snd (match drop_on direct w b with (Panic, s'') => (Panic, s'') | (_, s'') => (r, s'') end) = snd (drop_on direct w b)) by (intros r w b; destruct (drop_on direct w b) as ([ | | ], b'); reflexivity).
  assert (St : forall (r : res unit) w b s0, behind b s0 -> stuck b ->
    behind (snd (match r with Ok _ => finish_on buf_run w b | _ => match drop_on buf_run w b with (Panic, s'') => (Panic, s'') | (_, s'') => (r, s'') end end)) s0).
  { intros r w b s0 G1 G2. destruct r as [ u | e | ]; [ now apply stuck_finish | | ]; rewrite D; now apply stuck_drop. }
  destruct H2 as [ (<- & Ho1) | (-> & Hs) ].
  - destruct r1 as [ w | e1 | ]; [ | exact H1 | exact H1 ]. pose proof (extend_sim c vs w b1 s1 H1 Ho1) as P.
    destruct (extend_on direct c vs w s1) as ((r, w1), s2). destruct (extend_on buf_run c vs w b1) as ((r', w2), b2). destruct P as (P & [ (<- & <- & _) | (-> & Hs) ]).
    + destruct r as [ u | e | ]; [ now apply finish_sim | | ]; rewrite D, D'; now apply drop_sim.
    + rewrite D', (dead_drop w1 s2 (stuck_dead b2 s2 P Hs)). pose proof (St r' w2 b2 s2 P Hs) as G. destruct r'; exact G.
  - destruct r2 as [ w | e1 | ]; [ | exact H1 | exact H1 ]. destruct (stuck_extend c vs w b1 s1 H1 Hs) as (P1 & P2). destruct (extend_on buf_run c vs w b1) as ((r', w2), b2). cbn [snd] in *.
    pose proof (St r' w2 b2 s1 P1 P2) as G. destruct r'; exact G.
Qed.

(** * Success *)
(** [finish] succeeds through the buffer exactly when it does on the file. *)
Lemma finish_ok {S} (exec : forall A, wprog A -> S -> res A * S) w s :
  fst (finish_on exec w s) = Ok tt <-> fst (exec unit (finish_p w) s) = Ok tt /\ fst (drop_on exec w (snd (exec unit (finish_p w) s))) = Ok tt.
Proof.
  unfold finish_on. destruct (exec unit (finish_p w) s) as ([ u | e | ], s'); cbn [fst snd]; [ destruct u | | ]; (destruct (drop_on exec w s') as ([ [] | e' | ], s'') eqn:D); cbn [fst];
    unfold drop_on in D; destruct (exec unit (finish_p w) s') as ([ | | ], s3); try discriminate D; split; try tauto; intros; try easy; try (split; congruence).
Qed.
(** No panic in it. *)
Fixpoint calm {A} (p : wprog A) : Prop :=
  match p with WRet Panic => False | WRet _ => True | WWrite _ k => calm k | WTell k => forall n, calm (k n) | WSeek _ k => calm k | WFlush k => calm k end.
Lemma tick_calm s : fst (sink_tick s) <> Panic.
Proof. unfold sink_tick. destruct (sk_fuel s) as [ n | ]; [ destruct (n =? 0) | ]; discriminate. Qed.
Lemma tell_calm s : fst (sink_tell s) <> Panic.
Proof. unfold sink_tell. pose proof (tick_calm s) as H. destruct (sink_tick s) as ([ | | ], s'); easy. Qed.
Lemma seek_calm q s : fst (sink_seek q s) <> Panic.
Proof. unfold sink_seek. pose proof (tick_calm s) as H. destruct (sink_tick s) as ([ | | ], s'); easy. Qed.
Lemma write_calm bs s : fst (sink_write bs s) <> Panic.
Proof. destruct (write_result bs s) as [ -> | (-> & _) ]; discriminate. Qed.
Lemma pass_calm k b : fst (pass_on k b) <> Panic.
Proof. unfold pass_on. pose proof (write_calm (takeN k (b_bytes b)) (b_file b)) as H. destruct (sink_write _ _) as (r, f). exact H. Qed.
Lemma then_calm {A} (f : sink -> res A * sink) b : (forall s, fst (f s) <> Panic) -> fst (buffered_then f b) <> Panic.
Proof.
  intros Hf. unfold buffered_then, flush_buffer. pose proof (pass_calm (lenN (b_bytes b)) b) as H. destruct (pass_on (lenN (b_bytes b)) b) as ([ | | ], b'); [ | discriminate | easy ].
  specialize (Hf (b_file b')). destruct (f (b_file b')) as (r, s). exact Hf.
Qed.
Lemma direct_calm {A} (p : wprog A) : forall s, calm p -> fst (run_sink p s) <> Panic.
Proof.
  induction p as [ r | bs k IH | k IH | q k IH | k IH ]; intros s Hp; cbn [run_sink calm] in *.
  - destruct r; easy.
  - pose proof (write_calm bs s) as H. destruct (sink_write bs s) as ([ | | ], s'); [ now apply IH | discriminate | easy ].
  - pose proof (tell_calm s) as H. destruct (sink_tell s) as ([ | | ], s'); [ now apply IH | discriminate | easy ].
  - pose proof (seek_calm q s) as H. destruct (sink_seek q s) as ([ | | ], s'); [ now apply IH | discriminate | easy ].
  - pose proof (tick_calm s) as H. unfold sink_flush. destruct (sink_tick s) as ([ | | ], s'); [ now apply IH | discriminate | easy ].
Qed.
Lemma buffered_calm {A} (p : wprog A) : forall b, calm p -> fst (run_buffered p b) <> Panic.
Proof.
  induction p as [ r | bs k IH | k IH | q k IH | k IH ]; intros b Hp; cbn [run_buffered calm] in *.
  - destruct r; easy.
  - unfold buffered_write. fold (append bs b). pose proof (pass_calm (b_policy b (b_calls b) (lenN (b_bytes b)) (lenN bs)) (append bs b)) as H. destruct (pass_on _ _) as ([ | | ], s'); [ now apply IH | discriminate | easy ].
  - pose proof (then_calm sink_tell b tell_calm) as H. destruct (buffered_then sink_tell b) as ([ | | ], s'); [ now apply IH | discriminate | easy ].
  - pose proof (then_calm (sink_seek q) b (seek_calm q)) as H. destruct (buffered_then _ b) as ([ | | ], s'); [ now apply IH | discriminate | easy ].
  - pose proof (then_calm sink_flush b tick_calm) as H. destruct (buffered_then sink_flush b) as ([ | | ], s'); [ now apply IH | discriminate | easy ].
Qed.
(** Whatever runs it, [finish_] can only succeed if it has no panic in it. *)
Lemma finish_calm w :
  calm (finish_p w) \/ ((forall s, fst (run_sink (finish_p w) s) <> Ok tt) /\ (forall b, fst (run_buffered (finish_p w) b) <> Ok tt)).
Proof.
  assert (P : forall off txt, calm (patch_p w off txt (WFlush (WRet (Ok tt)))) \/
    ((forall s, fst (run_sink (patch_p w off txt (WFlush (WRet (Ok tt)))) s) <> Ok tt) /\ (forall b, fst (run_buffered (patch_p w off txt (WFlush (WRet (Ok tt)))) b) <> Ok tt))).
  { intros off txt. unfold patch_p. destruct (w_start_pos w) as [ start | ]; [ | right; split; intros; discriminate ]. destruct (w_seekable w); [ | right; split; intros; discriminate ].
    destruct txt as [ bs | e | ]; cbn [wbind].
    - left. cbn [calm]. auto.
    - left. cbn [calm]. auto.
    - right. cbn [run_sink run_buffered]. split.
      + intros s. destruct (sink_tell s) as ([ n | e | ], s'); [ | discriminate | discriminate ]. destruct (sink_seek _ s') as ([ | | ], s''); discriminate.
      + intros b. destruct (buffered_then sink_tell b) as ([ n | e | ], s'); [ | discriminate | discriminate ]. destruct (buffered_then _ s') as ([ | | ], s''); discriminate. }
  unfold finish_p. destruct (w_shape_info w) as [ off | off rl o | n ]; [ apply P | | ].
  - destruct (rl =? 0); [ right; split; intros; discriminate | ]. destruct (negb _); [ left; exact I | apply P ].
  - left. destruct (negb _); exact I.
Qed.
Lemma finish_direct_ok w s : fst (finish_on direct w s) = Ok tt <-> fst (run_sink (finish_p w) s) = Ok tt.
Proof.
  rewrite finish_ok. split; [ tauto | ]. intros H. split; [ exact H | ]. destruct (finish_calm w) as [ C | (C & _) ]; [ | now destruct (C s) ]. unfold drop_on.
  pose proof (direct_calm (finish_p w) (snd (run_sink (finish_p w) s)) C) as D. destruct (run_sink (finish_p w) (snd (run_sink (finish_p w) s))) as ([ | | ], s'); easy.
Qed.
Lemma finish_buffered_ok w b : fst (finish_on buf_run w b) = Ok tt <-> fst (run_buffered (finish_p w) b) = Ok tt.
Proof.
  rewrite finish_ok. split; [ tauto | ]. intros H. split; [ exact H | ]. destruct (finish_calm w) as [ C | (_ & C) ]; [ | now destruct (C b) ]. unfold drop_on.
  pose proof (buffered_calm (finish_p w) (snd (run_buffered (finish_p w) b)) C) as D. destruct (run_buffered (finish_p w) (snd (run_buffered (finish_p w) b))) as ([ | | ], s'); easy.
Qed.
(** After the last write something is done that passes it on. *)
Lemma synced_run {A} (p : wprog A) : forall b s, behind b s -> ~ over b -> synced true p -> forall a, fst (run_buffered p b) = Ok a -> fst (run_sink p s) = Ok a.
Proof.
  assert (X : forall B (f : sink -> res B * sink) (k : B -> wprog A), honest f ->
    (forall x b s, behind b s -> ~ over b -> synced false (k x) -> forall a, fst (run_buffered (k x) b) = Ok a -> fst (run_sink (k x) s) = Ok a) ->
    (forall x, synced false (k x)) -> forall b s, behind b s -> ~ over b -> forall a,
    fst (match buffered_then f b with (Ok n, b') => run_buffered (k n) b' | (Err e, b') => (Err e, b') | (Panic, b') => (Panic, b') end) = Ok a ->
    fst (match f s with (Ok n, s') => run_sink (k n) s' | (Err e, s') => (Err e, s') | (Panic, s') => (Panic, s') end) = Ok a).
  { intros B f k Hf IH Hk b s Hb Ho a. destruct (then_spec f b s Hf Hb) as [ (b' & E & H1 & H2) | (b' & E & _) ]; rewrite E; [ | discriminate ].
    destruct (f s) as ([ x | e | ], s'); cbn [fst snd] in *; [ | discriminate | discriminate ]. destruct (empty_behind b' s' H1 H2) as (H3 & H4). eapply IH; eauto. }
  enough (G : forall b s, behind b s -> ~ over b -> synced false p -> forall a, fst (run_buffered p b) = Ok a -> fst (run_sink p s) = Ok a).
  { intros b s Hb Ho Hp. apply G; auto. destruct p as [ [ | | ] | | | | ]; cbn [synced] in *; auto. }
  induction p as [ r | bs k IH | k IH | q k IH | k IH ]; intros b s Hb Ho Hp a; cbn [run_sink run_buffered synced] in *.
  - auto.
  - unfold buffered_write. fold (append bs b). pose proof (append_behind bs b s Hb) as Ha. destruct (append_over bs b s Ho Hb) as [ (Ew & Ho') | (Ew & Ho') ].
    + destruct (pass_on_ok (b_policy b (b_calls b) (lenN (b_bytes b)) (lenN bs)) _ _ Ha) as [ (b' & E & H1 & _ & _ & _ & Hs) | (b' & E & H1 & Ho'' & Hs) ]; [ | contradiction ]. rewrite E.
      destruct (sink_write bs s) as (r, s'); cbn [fst snd] in *; subst r. apply IH; [ exact H1 | tauto | ]. destruct k as [ [ | | ] | | | | ]; cbn [synced] in *; auto.
    + destruct (pass_on_ok (b_policy b (b_calls b) (lenN (b_bytes b)) (lenN bs)) _ _ Ha) as [ (b' & E & H1 & _ & _ & Hs & _) | (b' & E & _) ]; rewrite E; [ | discriminate ].
      intros H. exfalso. exact (stuck_synced k b' _ H1 (Hs (over_stuck _ Ho')) Hp a H).
  - apply (X N sink_tell k); auto using honest_tell.
  - apply (X unit (sink_seek q) (fun _ => k)); auto using honest_seek.
  - apply (X unit sink_flush (fun _ => k)); auto using honest_flush.
Qed.
Lemma finish_same_ok w b s : behind b s -> ~ over b -> fst (finish_on buf_run w b) = Ok tt <-> fst (finish_on direct w s) = Ok tt.
Proof.
  intros Hb Ho. rewrite finish_direct_ok, finish_buffered_ok. split.
  - apply synced_run; auto using finish_synced.
  - intros H. destruct (same_run (finish_p w) b s Hb Ho) as [ (E & _) | (E & _) ]; congruence.
Qed.
Lemma finish_stuck_ok w b s : behind b s -> stuck b -> fst (finish_on buf_run w b) <> Ok tt /\ fst (finish_on direct w s) <> Ok tt.
Proof.
  intros Hb Hs. rewrite finish_direct_ok, finish_buffered_ok. split; [ exact (stuck_synced _ b s Hb Hs (finish_synced w) tt) | exact (dead_synced _ s (stuck_dead b s Hb Hs) (finish_synced w) tt) ].
Qed.
Lemma session_ok c t d o h k vs pol s rs :
  fst (session_on buf_run c t d o h k vs Finished (fresh pol s)) = Ok (rs, Ok tt) <-> fst (session_on direct c t d o h k vs Finished s) = Ok (rs, Ok tt).
Proof.
  destruct (fresh_behind pol s) as (Hb & Ho). unfold session_on. destruct (behind_run (begin_p c t d o h k) _ s Hb) as (H1 & _). pose proof (same_run (begin_p c t d o h k) _ s Hb Ho) as H2.
  destruct (run_sink (begin_p c t d o h k) s) as (r1, s1). destruct (run_buffered (begin_p c t d o h k) (fresh pol s)) as (r2, b1). cbn [fst snd] in *. destruct H2 as [ (<- & Ho1) | (-> & Hs) ].
  - destruct r1 as [ w | e1 | ]; [ | split; discriminate | split; discriminate ]. pose proof (push_each_sim c vs w b1 s1 H1) as P.
    destruct (push_each_on direct c vs w s1) as ((rs1, w1), s2). destruct (push_each_on buf_run c vs w b1) as ((rs2, w2), b2). destruct P as (<- & P & _ & Q).
    unfold ended_on. destruct (Q Ho1) as [ (<- & Ho2) | Hs2 ].
    + pose proof (finish_same_ok w1 b2 s2 P Ho2) as G. destruct (finish_on direct w1 s2) as (r3, s3), (finish_on buf_run w1 b2) as (r4, b4). cbn [fst] in *.
      split; intros [= -> ->]; do 2 f_equal; tauto.
    + pose proof (finish_stuck_ok w1 b2 s2 P Hs2) as G. destruct (finish_on direct w1 s2) as (r3, s3), (finish_on buf_run w1 b2) as (r4, b4). cbn [fst] in *.
      split; intros [= -> ->]; exfalso; tauto.
  - destruct r2 as [ w | e1 | ]; [ | split; discriminate | split; discriminate ]. destruct (stuck_push_each c vs w b1 s1 H1 Hs) as (P1 & P2). destruct (push_each_on buf_run c vs w b1) as ((rs2, w2), b2). cbn [snd] in *.
    unfold ended_on. pose proof (finish_stuck_ok w2 b2 s1 P1 P2) as G. destruct (finish_on buf_run w2 b2) as (r4, b4). cbn [fst] in *. split; [ intros [= -> ->]; exfalso; tauto | discriminate ].
Qed.
Lemma write_file_ok c t d o h k vs pol s :
  fst (write_file_on buf_run c t d o h k vs (fresh pol s)) = Ok tt <-> fst (write_file_on direct c t d o h k vs s) = Ok tt.
Proof.
  destruct (fresh_behind pol s) as (Hb & Ho). unfold write_file_on. destruct (behind_run (begin_p c t d o h k) _ s Hb) as (H1 & _). pose proof (same_run (begin_p c t d o h k) _ s Hb Ho) as H2.
  destruct (run_sink (begin_p c t d o h k) s) as (r1, s1). destruct (run_buffered (begin_p c t d o h k) (fresh pol s)) as (r2, b1). cbn [fst snd] in *.
  assert (N : forall S (exec : forall A, wprog A -> S -> res A * S) (r : res unit) w x, (forall u, r <> Ok u) ->
    fst (match drop_on exec w x with (Panic, s'') => (Panic, s'') | (_, s'') => (r, s'') end) <> Ok tt) by (intros S exec r w x Hr; destruct (drop_on exec w x) as ([ | | ], x'); cbn [fst]; auto; discriminate).
  destruct H2 as [ (<- & Ho1) | (-> & Hs) ].
  - destruct r1 as [ w | e1 | ]; [ | split; discriminate | split; discriminate ]. pose proof (extend_sim c vs w b1 s1 H1 Ho1) as P.
    destruct (extend_on direct c vs w s1) as ((r, w1), s2). destruct (extend_on buf_run c vs w b1) as ((r', w2), b2). destruct P as (P & [ (<- & <- & Ho2) | (-> & Hs2) ]).
    + destruct r as [ u | e | ]; [ now apply finish_same_ok | | ]; (split; intros H; exfalso; revert H; apply N; discriminate).
    + split; intros H; exfalso; revert H; [ | apply N; discriminate ]. destruct r' as [ u | e | ]; [ exact (proj1 (finish_stuck_ok w2 b2 s2 P Hs2)) | apply N; discriminate | apply N; discriminate ].
  - split; [ | discriminate ]. destruct r2 as [ w | e1 | ]; [ | discriminate | discriminate ]. destruct (stuck_extend c vs w b1 s1 H1 Hs) as (P1 & P2). destruct (extend_on buf_run c vs w b1) as ((r', w2), b2). cbn [snd] in *.
    intros H; exfalso; revert H. destruct r' as [ u | e | ]; [ exact (proj1 (finish_stuck_ok w2 b2 s1 P1 P2)) | apply N; discriminate | apply N; discriminate ].
Qed.

(** * The buffer lost *)
Definition lower (g : N) (b : buffered) : buffered :=
  {| b_file := {| sk_data := sk_data (b_file b); sk_pos := sk_pos (b_file b); sk_fuel := Some g |}; b_bytes := b_bytes b; b_calls := b_calls b; b_policy := b_policy b |}.
Definition fuel_of (b : buffered) : option N := sk_fuel (b_file b).
(** [m] uses up a definite amount, and with less in reserve does the same. *)
Definition cost {R} (m : buffered -> R * buffered) : Prop := forall b, exists u,
  match fuel_of b with None => fuel_of (snd (m b)) = None | Some f => u <= f /\ fuel_of (snd (m b)) = Some (f - u) end
  /\ forall g, match fuel_of b with None => True | Some f => u + g <= f end -> m (lower (u + g) b) = (fst (m b), lower g (snd (m b))).
Lemma cost_ret {R} (r : R) : cost (fun b => (r, b)).
Proof. intros b. exists 0. split; [ destruct (fuel_of b) eqn:F; cbn [snd]; rewrite F; [ split; [ lia | f_equal; lia ] | reflexivity ] | ]. intros g _. reflexivity. Qed.
Lemma cost_bind {R Q} (m : buffered -> R * buffered) (k : R -> buffered -> Q * buffered) : cost m -> (forall r, cost (k r)) -> cost (fun b => let '(r, b') := m b in k r b').
Proof.
  intros Hm Hk b. destruct (Hm b) as (u & Hu & Hg). destruct (m b) as (r, b1) eqn:E. cbn [fst snd] in *. destruct (Hk r b1) as (v & Hv & Hh). exists (u + v). split.
  - destruct (fuel_of b) as [ f | ]; [ | rewrite Hu in Hv; exact Hv ]. destruct Hu as (L & Hu). rewrite Hu in Hv. destruct Hv as (L' & Hv). split; [ lia | ]. rewrite Hv. f_equal. lia.
  - intros g Hc. rewrite <- N.add_assoc. rewrite (Hg (v + g)); [ | destruct (fuel_of b); [ lia | exact I ] ]. apply Hh. destruct (fuel_of b) as [ f | ]; [ | now rewrite Hu ]. destruct Hu as (L & ->). lia.
Qed.
Lemma cost_ext {R} (m m' : buffered -> R * buffered) : (forall b, m b = m' b) -> cost m -> cost m'.
Proof.
  intros E H b. destruct (H b) as (u & H1 & H2). exists u. rewrite !E in H1. split; [ exact H1 | ]. intros g Hc. rewrite <- !E. now apply H2.
Qed.
(** A call on the file, and what it does to the buffer. *)
Definition scost {R} (f : sink -> R * sink) : Prop := forall s, exists u,
  match sk_fuel s with None => sk_fuel (snd (f s)) = None | Some n => u <= n /\ sk_fuel (snd (f s)) = Some (n - u) end
  /\ forall g, match sk_fuel s with None => True | Some n => u + g <= n end ->
     f {| sk_data := sk_data s; sk_pos := sk_pos s; sk_fuel := Some (u + g) |}
     = (fst (f s), {| sk_data := sk_data (snd (f s)); sk_pos := sk_pos (snd (f s)); sk_fuel := Some g |}).
Lemma write_cost bs : scost (sink_write bs).
Proof.
  intros s. destruct (sk_fuel s) as [ n | ] eqn:F.
  - rewrite (sink_write_some s bs n F). destruct (N.leb_spec (lenN bs) n) as [ L | L ].
    + exists (lenN bs). cbn [fst snd put sk_fuel]. split; [ auto | ]. intros g Hg. rewrite (sink_write_some _ bs (lenN bs + g)) by reflexivity. destruct (N.leb_spec (lenN bs) (lenN bs + g)); [ | lia ].
      unfold put. cbn [sk_data sk_pos]. do 3 f_equal. lia.
    + exists n. cbn [fst snd put sk_fuel]. split; [ split; [ lia | f_equal; lia ] | ]. intros g Hg. assert (g = 0) as -> by lia. rewrite (sink_write_some _ bs (n + 0)) by reflexivity.
      destruct (N.leb_spec (lenN bs) (n + 0)); [ lia | ]. unfold put. cbn [sk_data sk_pos]. rewrite N.add_0_r. reflexivity.
  - rewrite (sink_write_none s bs F). exists (lenN bs). cbn [fst snd put sk_fuel]. split; [ reflexivity | ]. intros g _. rewrite (sink_write_some _ bs (lenN bs + g)) by reflexivity.
    destruct (N.leb_spec (lenN bs) (lenN bs + g)); [ | lia ]. unfold put. cbn [sk_data sk_pos]. do 3 f_equal. lia.
Qed.
Lemma tick_cost : scost sink_tick.
Proof.
  intros s. unfold sink_tick. destruct (sk_fuel s) as [ n | ] eqn:F.
  - destruct (N.eqb_spec n 0) as [ -> | Hn ].
    + exists 0. cbn [fst snd sk_fuel]. rewrite F. split; [ split; [ lia | reflexivity ] | ]. intros g Hg. assert (g = 0) as -> by lia. destruct s as [D P U]; cbn [sk_data sk_pos sk_fuel] in *; subst. reflexivity.
    + exists 1. cbn [fst snd sk_fuel sk_data sk_pos]. split; [ split; [ lia | reflexivity ] | ]. intros g Hg. destruct (N.eqb_spec (1 + g) 0); [ lia | ]. do 3 f_equal. lia.
  - exists 1. cbn [fst snd sk_fuel sk_data sk_pos]. split; [ exact F | ]. intros g Hg. destruct (N.eqb_spec (1 + g) 0); [ lia | ]. do 3 f_equal. lia.
Qed.
Lemma tell_cost : scost sink_tell.
Proof.
  intros s. destruct (tick_cost s) as (u & H1 & H2). exists u. unfold sink_tell in *.
  split.
  - destruct (sink_tick s) as ([ | | ], s'); exact H1.
  - intros g Hg. rewrite (H2 g Hg). destruct (sink_tick s) as ([ | | ], s'); reflexivity.
Qed.
Lemma seek_cost p : scost (sink_seek p).
Proof.
  intros s. destruct (tick_cost s) as (u & H1 & H2). exists u. unfold sink_seek in *.
  split.
  - destruct (sink_tick s) as ([ | | ], s'); exact H1.
  - intros g Hg. rewrite (H2 g Hg). destruct (sink_tick s) as ([ | | ], s'); reflexivity.
Qed.
Lemma pass_cost k : cost (pass_on k).
Proof.
  intros b. destruct (write_cost (takeN k (b_bytes b)) (b_file b)) as (u & H1 & H2). exists u. unfold pass_on, fuel_of in *. cbn [lower b_file b_bytes b_calls b_policy].
  split.
  - destruct (sink_write (takeN k (b_bytes b)) (b_file b)) as (r, f). exact H1.
  - intros g Hg. rewrite (H2 g Hg). destruct (sink_write (takeN k (b_bytes b)) (b_file b)) as (r, f). reflexivity.
Qed.
Lemma bwrite_cost bs : cost (buffered_write bs).
Proof.
  intros b. unfold buffered_write. destruct (pass_cost (b_policy b (b_calls b) (lenN (b_bytes b)) (lenN bs)) {| b_file := b_file b; b_bytes := b_bytes b ++ bs; b_calls := b_calls b + 1; b_policy := b_policy b |}) as (u & H1 & H2).
  exists u. split; [ exact H1 | exact H2 ].
Qed.
Lemma on_file_cost {A} (f : sink -> res A * sink) : scost f ->
  cost (fun b => let '(r, s) := f (b_file b) in (r, {| b_file := s; b_bytes := b_bytes b; b_calls := b_calls b; b_policy := b_policy b |})).
Proof.
  intros H b. destruct (H (b_file b)) as (u & H1 & H2). exists u. unfold fuel_of in *. cbn [lower b_file b_bytes b_calls b_policy]. split.
  - destruct (f (b_file b)) as (r, s). exact H1.
  - intros g Hg. rewrite (H2 g Hg). destruct (f (b_file b)) as (r, s). reflexivity.
Qed.
Lemma then_cost {A} (f : sink -> res A * sink) : scost f -> cost (buffered_then f).
Proof.
  intros H. unfold buffered_then. eapply cost_ext; [ | apply (cost_bind flush_buffer (fun r b' => match r with
    | Ok _ => let '(r', s) := f (b_file b') in (r', {| b_file := s; b_bytes := b_bytes b'; b_calls := b_calls b'; b_policy := b_policy b' |})
    | Err e => (Err e, b') | Panic => (Panic, b') end)) ].
  - intros b. cbn beta. destruct (flush_buffer b) as ([ | | ], b'); reflexivity.
  - intros b. destruct (pass_cost (lenN (b_bytes b)) b) as (u & H1 & H2). exists u. split; [ exact H1 | exact H2 ].
  - intros [ u | e | ]; [ now apply on_file_cost | apply cost_ret | apply cost_ret ].
Qed.
Lemma match_cost {R Q} (m : buffered -> res R * buffered) (k : R -> buffered -> res Q * buffered) : cost m -> (forall r, cost (k r)) ->
  cost (fun b => match m b with (Ok x, b') => k x b' | (Err e, b') => (Err e, b') | (Panic, b') => (Panic, b') end).
Proof.
  intros Hm Hk. eapply cost_ext; [ | apply (cost_bind m (fun r b' => match r with Ok x => k x b' | Err e => (Err e, b') | Panic => (Panic, b') end) Hm) ].
  - intros b. cbn beta. destruct (m b) as ([ | | ], b'); reflexivity.
  - intros [ x | e | ]; [ apply Hk | apply cost_ret | apply cost_ret ].
Qed.
Lemma run_cost {A} (p : wprog A) : cost (run_buffered p).
Proof.
  induction p as [ r | bs k IH | k IH | q k IH | k IH ]; cbn [run_buffered].
  - apply cost_ret.
  - apply (match_cost (buffered_write bs) (fun _ => run_buffered k)); auto using bwrite_cost.
  - apply (match_cost (buffered_then sink_tell) (fun n => run_buffered (k n))); auto using then_cost, tell_cost.
  - apply (match_cost (buffered_then (sink_seek q)) (fun _ => run_buffered k)); auto using then_cost, seek_cost.
  - apply (match_cost (buffered_then sink_flush) (fun _ => run_buffered k)); auto. apply then_cost, tick_cost.
Qed.
Lemma push_cost c v w : cost (push_on buf_run c v w).
Proof.
  unfold push_on. destruct (u64_add c (w_num_items w) 1) as [ n | e | ]; [ | apply cost_ret | apply cost_ret ]. destruct (write_one c (w_writer w) v) as (bs, r).
  apply (cost_bind (run_buffered (WWrite bs (WRet r))) (fun r' b' => (r', _, b'))); [ apply run_cost | ]. intros r'. apply cost_ret.
Qed.
Lemma push_each_cost c vs : forall w, cost (push_each_on buf_run c vs w).
Proof.
  induction vs as [ | v vs IH ]; intros w; [ apply cost_ret | ].
  eapply cost_ext; [ | apply (cost_bind (push_on buf_run c v w) (fun rw b' => let '(rsw, b'') := push_each_on buf_run c vs (snd rw) b' in (fst rw :: fst rsw, snd rsw, b''))) ].
  - intros b. cbn beta. cbn [push_each_on]. destruct (push_on buf_run c v w b) as ((r, w'), b'). cbn [fst snd]. destruct (push_each_on buf_run c vs w' b') as ((rs, w''), b''). reflexivity.
  - apply push_cost.
  - intros (r, w'). cbn [fst snd]. apply (cost_bind (push_each_on buf_run c vs w') (fun rsw b'' => (r :: fst rsw, snd rsw, b''))); [ apply IH | ]. intros rsw. apply cost_ret.
Qed.
Lemma drop_cost w : cost (drop_on buf_run w).
Proof.
  eapply cost_ext; [ | apply (cost_bind (run_buffered (finish_p w)) (fun r b' => (match r with Panic => Panic | _ => Ok tt end, b')) (run_cost _)) ].
  - intros b. cbn beta. unfold drop_on. destruct (run_buffered (finish_p w) b) as ([ | | ], b'); reflexivity.
  - intros r. apply cost_ret.
Qed.
Lemma finish_cost w : cost (finish_on buf_run w).
Proof.
  eapply cost_ext; [ | apply (cost_bind (run_buffered (finish_p w)) (fun r b' => let '(r', b'') := drop_on buf_run w b' in
    (match r with Panic => Panic | _ => match r' with Panic => Panic | _ => r end end, b'')) (run_cost _)) ].
  - intros b. cbn beta. unfold finish_on. destruct (run_buffered (finish_p w) b) as ([ | | ], b'); destruct (drop_on buf_run w b') as ([ | | ], b''); reflexivity.
  - intros r. apply (cost_bind (drop_on buf_run w) (fun r' b'' => (match r with Panic => Panic | _ => match r' with Panic => Panic | _ => r end end, b''))); [ apply drop_cost | ]. intros r'. apply cost_ret.
Qed.
Lemma started_cost c t d o h k vs : cost (started_on buf_run c t d o h k vs).
Proof.
  unfold started_on. apply (match_cost (run_buffered (begin_p c t d o h k)) (fun w b => let '(rs, _, b2) := push_each_on buf_run c vs w b in (Ok rs, b2)) (run_cost _)).
  intros w. eapply cost_ext; [ | apply (cost_bind (push_each_on buf_run c vs w) (fun rw b' => (Ok (fst rw), b')) (push_each_cost _ _ _)) ].
  - intros b. cbn beta. destruct (push_each_on buf_run c vs w b) as ((rs, w'), b'). reflexivity.
  - intros rw. apply cost_ret.
Qed.
Lemma session_cost c t d o h k vs e : cost (session_on buf_run c t d o h k vs e).
Proof.
  unfold session_on. apply (match_cost (run_buffered (begin_p c t d o h k)) (fun w b => let '(rs, w', b2) := push_each_on buf_run c vs w b in
    let '(r, b3) := ended_on buf_run e w' b2 in (Ok (rs, r), b3)) (run_cost _)).
  intros w. eapply cost_ext; [ | apply (cost_bind (push_each_on buf_run c vs w) (fun rw b' => let '(r, b3) := ended_on buf_run e (snd rw) b' in (Ok (fst rw, r), b3)) (push_each_cost _ _ _)) ].
  - intros b. cbn beta. destruct (push_each_on buf_run c vs w b) as ((rs, w'), b'). reflexivity.
  - intros (rs, w'). cbn [fst snd]. apply (cost_bind (ended_on buf_run e w') (fun r b3 => (Ok (rs, r), b3))); [ | intros r; apply cost_ret ].
    unfold ended_on. destruct e; [ apply finish_cost | apply drop_cost ].
Qed.
Definition fueled (s : sink) (f : option N) : sink := {| sk_data := sk_data s; sk_pos := sk_pos s; sk_fuel := f |}.
(** Whatever the buffer still holds, the file is one an unbuffered session would have left, stopping earlier. *)
Lemma session_lost c t d o h k vs e pol s : exists f,
  sk_data (b_file (snd (session_on buf_run c t d o h k vs e (fresh pol s)))) = sk_data (snd (session_on direct c t d o h k vs e (fueled s f))).
Proof.
  destruct (session_cost c t d o h k vs e (fresh pol s)) as (u & H1 & H2). exists (Some u). specialize (H2 0). rewrite N.add_0_r in H2.
  assert (C : session_on buf_run c t d o h k vs e (lower u (fresh pol s)) = (fst (session_on buf_run c t d o h k vs e (fresh pol s)), lower 0 (snd (session_on buf_run c t d o h k vs e (fresh pol s))))).
  { apply H2. destruct (fuel_of (fresh pol s)); [ tauto | exact I ]. }
  change (lower u (fresh pol s)) with (fresh pol (fueled s (Some u))) in C. pose proof (session_behind c t d o h k vs e pol (fueled s (Some u))) as B. rewrite C in B. cbn [snd] in B.
  unfold behind in B. rewrite <- B. cbn [lower b_bytes b_file].
  match goal with |- _ = sk_data (snd (sink_write ?x ?y)) => rewrite (proj1 (dead_write x y eq_refl)) end. reflexivity.
Qed.
Lemma push_each_app {S} (exec : forall A, wprog A -> S -> res A * S) c v1 v2 : forall w s,
  push_each_on exec c (v1 ++ v2) w s = let '(r1, w1, s1) := push_each_on exec c v1 w s in let '(r2, w2, s2) := push_each_on exec c v2 w1 s1 in (r1 ++ r2, w2, s2).
Proof.
  induction v1 as [ | v v1 IH ]; intros w s; cbn [app push_each_on].
  - destruct (push_each_on exec c v2 w s) as ((r2, w2), s2). reflexivity.
  - destruct (push_on exec c v w s) as ((r, w'), s'). rewrite IH. destruct (push_each_on exec c v1 w' s') as ((r1, w1), s1). destruct (push_each_on exec c v2 w1 s1) as ((r2, w2), s2). reflexivity.
Qed.
Lemma started_lost c t d o h k v1 v2 e pol s : exists f,
  sk_data (b_file (snd (started_on buf_run c t d o h k v1 (fresh pol s)))) = sk_data (snd (session_on direct c t d o h k (v1 ++ v2) e (fueled s f))).
Proof.
  destruct (started_cost c t d o h k v1 (fresh pol s)) as (u & H1 & H2). exists (Some u). specialize (H2 0). rewrite N.add_0_r in H2.
  assert (C : started_on buf_run c t d o h k v1 (lower u (fresh pol s)) = (fst (started_on buf_run c t d o h k v1 (fresh pol s)), lower 0 (snd (started_on buf_run c t d o h k v1 (fresh pol s))))).
  { apply H2. destruct (fuel_of (fresh pol s)); [ tauto | exact I ]. }
  change (lower u (fresh pol s)) with (fresh pol (fueled s (Some u))) in C. pose proof (session_behind c t d o h k (v1 ++ v2) e pol (fueled s (Some u))) as B.
  set (b' := snd (started_on buf_run c t d o h k v1 (fresh pol s))) in *. clearbody b'. clear H1 H2.
  set (fin := snd (session_on direct c t d o h k (v1 ++ v2) e (fueled s (Some u)))) in *. clearbody fin.
  assert (D : behind (lower 0 b') (b_file (lower 0 b'))) by (unfold behind; apply dead_write; reflexivity).
  assert (St : stuck (lower 0 b')) by (exists 0; split; [ reflexivity | auto ]).
  assert (G : behind (snd (session_on buf_run c t d o h k (v1 ++ v2) e (fresh pol (fueled s (Some u))))) (b_file (lower 0 b'))).
  { unfold started_on in C. unfold session_on. destruct (run_buffered (begin_p c t d o h k) (fresh pol (fueled s (Some u)))) as ([ w | e1 | ], b1).
    - rewrite push_each_app. destruct (push_each_on buf_run c v1 w b1) as ((r1, w1), b2). apply pair_inj in C as (_ & ->).
      destruct (stuck_push_each c v2 w1 _ _ D St) as (P1 & P2). destruct (push_each_on buf_run c v2 w1 (lower 0 b')) as ((r2, w2), b3). cbn [snd] in *.
      assert (G : behind (snd (ended_on buf_run e w2 b3)) (b_file (lower 0 b'))) by (unfold ended_on; destruct e; [ now apply stuck_finish | now apply stuck_drop ]).
      destruct (ended_on buf_run e w2 b3) as (r4, b4). exact G.
    - apply pair_inj in C as (_ & ->). exact D.
    - apply pair_inj in C as (_ & ->). exact D. }
  unfold behind in B, G. rewrite <- B, G. reflexivity.
Qed.
(** On a file that does not stop the calls return the same. *)
Lemma never_dead {A} (p : wprog A) : forall s, sk_fuel s = None -> sk_fuel (snd (run_sink p s)) = None.
Proof.
  assert (T : forall s, sk_fuel s = None -> sk_fuel (snd (sink_tick s)) = None) by (intros s F; unfold sink_tick; rewrite F; exact F).
  induction p as [ r | bs k IH | k IH | q k IH | k IH ]; intros s F; cbn [run_sink].
  - exact F.
  - rewrite (sink_write_none s bs F). apply IH. reflexivity.
  - unfold sink_tell. specialize (T s F). destruct (sink_tick s) as ([ | | ], s'); auto.
  - unfold sink_seek. specialize (T s F). destruct (sink_tick s) as ([ | | ], s'); auto.
  - unfold sink_flush. specialize (T s F). destruct (sink_tick s) as ([ | | ], s'); auto.
Qed.
Lemma same_run_live {A} (p : wprog A) b s : behind b s -> ~ over b -> sk_fuel s = None ->
  fst (run_sink p s) = fst (run_buffered p b) /\ ~ over (snd (run_buffered p b)) /\ behind (snd (run_buffered p b)) (snd (run_sink p s)) /\ sk_fuel (snd (run_sink p s)) = None.
Proof.
  intros Hb Ho F. destruct (behind_run p b s Hb) as (H1 & _). pose proof (never_dead p s F) as F'. destruct (same_run p b s Hb Ho) as [ (H2 & H3) | (_ & Hs) ]; [ auto | ].
  pose proof (stuck_dead _ _ H1 Hs) as D. congruence.
Qed.
Lemma push_each_live c vs : forall w b s, behind b s -> ~ over b -> sk_fuel s = None ->
  fst (push_each_on direct c vs w s) = fst (push_each_on buf_run c vs w b) /\ ~ over (snd (push_each_on buf_run c vs w b))
  /\ behind (snd (push_each_on buf_run c vs w b)) (snd (push_each_on direct c vs w s)) /\ sk_fuel (snd (push_each_on direct c vs w s)) = None.
Proof.
  induction vs as [ | v vs IH ]; intros w b s Hb Ho F; cbn [push_each_on]; [ auto | ]. unfold push_on. destruct (u64_add c (w_num_items w) 1) as [ n | e | ].
  - destruct (write_one c (w_writer w) v) as (bs, r). destruct (same_run_live (WWrite bs (WRet r)) b s Hb Ho F) as (H1 & H2 & H3 & H4).
    destruct (run_sink (WWrite bs (WRet r)) s) as (r1, s1), (run_buffered (WWrite bs (WRet r)) b) as (r2, b1). cbn [fst snd] in *. subst r2.
    match goal with |- context [ push_each_on direct c vs ?w' s1 ] => specialize (IH w' b1 s1 H3 H2 H4); destruct (push_each_on direct c vs w' s1) as ((rs, w1), s2), (push_each_on buf_run c vs w' b1) as ((rs', w2), b2) end.
    cbn [fst snd] in *. destruct IH as (E & IH). apply pair_inj in E as (<- & <-). auto.
  - specialize (IH w b s Hb Ho F). destruct (push_each_on direct c vs w s) as ((rs, w1), s2), (push_each_on buf_run c vs w b) as ((rs', w2), b2). cbn [fst snd] in *.
    destruct IH as (E & IH). apply pair_inj in E as (<- & <-). auto.
  - specialize (IH w b s Hb Ho F). destruct (push_each_on direct c vs w s) as ((rs, w1), s2), (push_each_on buf_run c vs w b) as ((rs', w2), b2). cbn [fst snd] in *.
    destruct IH as (E & IH). apply pair_inj in E as (<- & <-). auto.
Qed.
Lemma drop_live w b s : behind b s -> ~ over b -> sk_fuel s = None -> fst (drop_on direct w s) = fst (drop_on buf_run w b).
Proof.
  intros Hb Ho F. destruct (same_run_live (finish_p w) b s Hb Ho F) as (H1 & _). unfold drop_on.
  destruct (run_sink (finish_p w) s) as (r1, s1), (run_buffered (finish_p w) b) as (r2, b1). cbn [fst] in *. subst. destruct r2; reflexivity.
Qed.
Lemma finish_live w b s : behind b s -> ~ over b -> sk_fuel s = None -> fst (finish_on direct w s) = fst (finish_on buf_run w b).
Proof.
  intros Hb Ho F. destruct (same_run_live (finish_p w) b s Hb Ho F) as (H1 & H2 & H3 & H4). unfold finish_on.
  destruct (run_sink (finish_p w) s) as (r1, s1), (run_buffered (finish_p w) b) as (r2, b1). cbn [fst snd] in *. subst. pose proof (drop_live w b1 s1 H3 H2 H4) as D.
  destruct (drop_on direct w s1) as (r3, s3), (drop_on buf_run w b1) as (r4, b3). cbn [fst] in *. subst. destruct r2, r4; reflexivity.
Qed.
Lemma session_live c t d o h k vs e pol s : sk_fuel s = None ->
  fst (session_on buf_run c t d o h k vs e (fresh pol s)) = fst (session_on direct c t d o h k vs e s).
Proof.
  intros F. destruct (fresh_behind pol s) as (Hb & Ho). destruct (same_run_live (begin_p c t d o h k) _ s Hb Ho F) as (H1 & H2 & H3 & H4). unfold session_on.
  destruct (run_sink (begin_p c t d o h k) s) as (r1, s1), (run_buffered (begin_p c t d o h k) (fresh pol s)) as (r2, b1). cbn [fst snd] in *. subst r2.
  destruct r1 as [ w | e1 | ]; [ | reflexivity | reflexivity ]. destruct (push_each_live c vs w b1 s1 H3 H2 H4) as (E & P1 & P2 & P3).
  destruct (push_each_on direct c vs w s1) as ((rs, w1), s2), (push_each_on buf_run c vs w b1) as ((rs', w2), b2). cbn [fst snd] in *. apply pair_inj in E as (<- & <-).
  assert (G : fst (ended_on direct e w1 s2) = fst (ended_on buf_run e w1 b2)) by (unfold ended_on; destruct e; [ now apply finish_live | now apply drop_live ]).
  destruct (ended_on direct e w1 s2) as (r3, s3), (ended_on buf_run e w1 b2) as (r4, b4). cbn [fst] in *. now subst.
Qed.
