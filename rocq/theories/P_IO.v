(** Read programs. *)
From Verif Require Import M_Base M_IO P_Base.
Open Scope N_scope.

Definition then_ {A B} (r : res A * bytes) (k : A -> bytes -> res B * bytes) : res B * bytes :=
  match r with
  | (Ok a, rest) => k a rest
  | (Err e, rest) => (Err e, rest)
  | (Panic, rest) => (Panic, rest)
  end.

Lemma run_bind {A B} (p : rprog A) (f : A -> rprog B) : forall input,
  run (rbind p f) input = then_ (run p input) (fun a rest => run (f a) rest).
Proof.
  induction p as [ a | e | | n eof k IH ]; intros input; auto.
  cbn [rbind run]. destruct (n <=? lenN input); auto.
Qed.

Lemma run_lift {A} (r : res A) input : run (rlift r) input = (r, input).
Proof. destruct r; reflexivity. Qed.

Lemma run_read_exact n input rest : lenN input = n -> run (read_exact n) (input ++ rest) = (Ok input, rest).
Proof.
  intros H. unfold read_exact. cbn [run]. rewrite lenN_app. replace (n <=? lenN input + lenN rest) with true by lia.
  now rewrite takeN_app, dropN_app.
Qed.

(** Successful and failed runs do not depend on what follows, except for running out of input. *)
Lemma run_app {A} (p : rprog A) : forall input rest a more,
  run p input = (Ok a, rest) -> run p (input ++ more) = (Ok a, rest ++ more).
Proof.
  induction p as [ a0 | e | | n eof k IH ]; intros input rest a more H; cbn [run] in *.
  - now injection H as <- <-.
  - discriminate.
  - discriminate.
  - destruct (N.leb_spec n (lenN input)); [ | discriminate ].
    rewrite lenN_app. replace (n <=? lenN input + lenN more) with true by lia.
    rewrite takeN_app_gen, dropN_app_gen. replace (n - lenN input) with 0 by lia.
    rewrite takeN_0, app_nil_r, dropN_0. now apply IH.
Qed.

(** What is left is a suffix of the input. *)
Lemma run_suffix {A} (p : rprog A) : forall input r rest, run p input = (r, rest) -> exists used, input = used ++ rest.
Proof.
  induction p as [ a0 | e | | n eof k IH ]; intros input r rest H; cbn [run] in *.
  - injection H as _ <-. now exists [].
  - injection H as _ <-. now exists [].
  - injection H as _ <-. now exists [].
  - destruct (n <=? lenN input).
    + apply IH in H as (used & Hu). exists (takeN n input ++ used). rewrite <- app_assoc, <- Hu. now rewrite takeN_dropN.
    + injection H as _ <-. exists input. now rewrite app_nil_r.
Qed.

(** On a prefix of its input, a program gives the same result or hits the end of input. *)
Lemma run_prefix {A} (p : rprog A) : forall pre suf,
  match run p pre with
  | (Ok a, rest) => run p (pre ++ suf) = (Ok a, rest ++ suf)
  | (Err e, rest) => run p (pre ++ suf) = (Err e, rest ++ suf) \/ rest = []
  | (Panic, rest) => run p (pre ++ suf) = (Panic, rest ++ suf)
  end.
Proof.
  induction p as [ a0 | e | | n eof k IH ]; intros pre suf; cbn [run]; auto.
  destruct (N.leb_spec n (lenN pre)); [ | now right ].
  specialize (IH (takeN n pre) (dropN n pre) suf).
  assert (E : (if n <=? lenN (pre ++ suf) then run (k (takeN n (pre ++ suf))) (dropN n (pre ++ suf)) else (Err eof, []))
              = run (k (takeN n pre)) (dropN n pre ++ suf)).
  { rewrite lenN_app. replace (n <=? lenN pre + lenN suf) with true by lia.
    rewrite takeN_app_gen, dropN_app_gen. replace (n - lenN pre) with 0 by lia. now rewrite takeN_0, app_nil_r, dropN_0. }
  rewrite E. exact IH.
Qed.

(** * Chunked readers *)
Definition live (s : schedule) : Prop := Forall (fun x => x <> Some []) s.

Lemma read_exact_loop_spec s : live s -> forall want acc,
  match read_exact_loop want s acc with
  | (Some bs, s') => want <= lenN (sched_bytes s) /\ bs = acc ++ takeN want (sched_bytes s)
                     /\ sched_bytes s' = dropN want (sched_bytes s) /\ live s'
  | (None, s') => lenN (sched_bytes s) < want /\ s' = []
  end.
Proof.
  induction 1 as [ | x s Hx Hs IH ]; intros want acc.
  - cbn [read_exact_loop sched_bytes]. destruct (N.eqb_spec want 0).
    + subst. rewrite takeN_0, app_nil_r. repeat split; auto; [ cbn; lia | constructor ].
    + split; [ cbn; lia | reflexivity ].
  - cbn [read_exact_loop]. destruct (N.eqb_spec want 0) as [ -> | Hw ].
    { rewrite takeN_0, app_nil_r, dropN_0. repeat split; auto; [ lia | constructor; auto ]. }
    destruct x as [ c | ].
    + destruct c as [ | b c ]; [ congruence | ]. remember (b :: c) as ch eqn:Ech. cbn [sched_bytes].
      destruct (N.ltb_spec want (lenN ch)).
      * split; [ rewrite lenN_app; lia | ]. split.
        { f_equal. rewrite takeN_app_gen. replace (want - lenN ch) with 0 by lia. now rewrite takeN_0, app_nil_r. }
        split.
        { cbn [sched_bytes]. rewrite dropN_app_gen. replace (want - lenN ch) with 0 by lia. reflexivity. }
        constructor; auto. intros [= E]. apply (f_equal lenN) in E. rewrite lenN_dropN in E. cbn in E. lia.
      * specialize (IH (want - lenN ch) (acc ++ ch)).
        destruct (read_exact_loop (want - lenN ch) s (acc ++ ch)) as ([ bs | ], s').
        -- destruct IH as (H1 & H2 & H3 & H4). rewrite lenN_app. split; [ lia | ].
           rewrite takeN_app_gen, dropN_app_gen. rewrite (takeN_all want ch), (dropN_all want ch) by lia.
           cbn [app]. split; [ now rewrite <- app_assoc in H2 | ]. now split.
        -- rewrite lenN_app. split; [ lia | tauto ].
    + cbn [sched_bytes]. apply IH.
Qed.

Lemma run_sched_run {A} (p : rprog A) : forall s, live s ->
  fst (run_sched p s) = fst (run p (sched_bytes s)) /\ sched_bytes (snd (run_sched p s)) = snd (run p (sched_bytes s))
  /\ live (snd (run_sched p s)).
Proof.
  induction p as [ a0 | e | | n eof k IH ]; intros s Hs; cbn [run_sched run]; auto.
  pose proof (read_exact_loop_spec s Hs n []) as H.
  destruct (read_exact_loop n s []) as ([ bs | ], s').
  - destruct H as (H1 & H2 & H3 & H4). replace (n <=? lenN (sched_bytes s)) with true by lia.
    cbn [app] in H2. subst bs. rewrite <- H3. now apply IH.
  - destruct H as (H1 & ->). replace (n <=? lenN (sched_bytes s)) with false by lia. cbn. repeat split; constructor.
Qed.

Lemma run_rreplicate_S {A} n (p : rprog A) input :
  run (rreplicate (S n) p) input = then_ (run p input) (fun x rest => then_ (run (rreplicate n p) rest) (fun xs rest' => (Ok (x :: xs), rest'))).
Proof.
  cbn [rreplicate]. rewrite run_bind. destruct (run p input) as ([ a | e | ], rest); auto.
  cbn [then_]. rewrite run_bind. destruct (run (rreplicate n p) rest) as ([ xs | e | ], rest'); auto.
Qed.

Lemma run_sched_same {A} (p : rprog A) s1 s2 : live s1 -> live s2 -> sched_bytes s1 = sched_bytes s2 ->
  fst (run_sched p s1) = fst (run_sched p s2) /\ sched_bytes (snd (run_sched p s1)) = sched_bytes (snd (run_sched p s2)).
Proof.
  intros H1 H2 E. destruct (run_sched_run p s1 H1) as (A1 & B1 & _). destruct (run_sched_run p s2 H2) as (A2 & B2 & _).
  split; congruence.
Qed.
