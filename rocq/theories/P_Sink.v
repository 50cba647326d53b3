(** Output sinks. *)
From Verif Require Import M_Base M_IO P_Base.
Open Scope N_scope.

Definition put (s : sink) (bs : bytes) (fuel : option N) : sink :=
  {| sk_data := match bs with [] => sk_data s | _ => overwrite (sk_data s) (sk_pos s) bs end;
     sk_pos := sk_pos s + lenN bs; sk_fuel := fuel |}.

Lemma sink_write_none s bs : sk_fuel s = None -> sink_write bs s = (Ok tt, put s bs None).
Proof. intros H. unfold sink_write. now rewrite H. Qed.
Lemma sink_write_some s bs n : sk_fuel s = Some n ->
  sink_write bs s = if lenN bs <=? n then (Ok tt, put s bs (Some (n - lenN bs))) else (Err ESink, put s (takeN n bs) (Some 0)).
Proof. intros H. unfold sink_write. now rewrite H. Qed.

Lemma put_nil s f : put s [] f = {| sk_data := sk_data s; sk_pos := sk_pos s; sk_fuel := f |}.
Proof. unfold put. f_equal. rewrite lenN_nil. lia. Qed.

Lemma overwrite_length d p bs : lenN (overwrite d p bs) = N.max (lenN d) (p + lenN bs).
Proof. unfold overwrite. rewrite !lenN_app, lenN_takeN, lenN_repeatN, lenN_dropN. lia. Qed.

Lemma overwrite_app d p a b : overwrite d p (a ++ b) = overwrite (overwrite d p a) (p + lenN a) b.
Proof.
  set (P := takeN p d ++ repeatN 0 (p - lenN d)).
  assert (HP : lenN P = p) by (unfold P; rewrite lenN_app, lenN_takeN, lenN_repeatN; lia).
  assert (G : forall x, overwrite d p x = P ++ x ++ dropN (p + lenN x) d) by (intros x; unfold overwrite, P; now rewrite <- app_assoc).
  rewrite (G (a ++ b)). unfold overwrite at 1. rewrite overwrite_length.
  replace (p + lenN a - N.max (lenN d) (p + lenN a)) with 0 by lia. rewrite repeatN_0. cbn [app].
  rewrite (G a). rewrite (app_assoc P a). rewrite takeN_app by (rewrite lenN_app; lia).
  rewrite dropN_app_gen. rewrite (dropN_all _ (P ++ a)) by (rewrite lenN_app; lia). cbn [app].
  rewrite dropN_dropN, <- !app_assoc. do 4 f_equal. rewrite !lenN_app. lia.
Qed.

Lemma put_put s a b f f' : put (put s a f) b f' = put s (a ++ b) f'.
Proof.
  unfold put; cbn [sk_data sk_pos]. f_equal; [ | rewrite lenN_app; lia ].
  destruct a as [ | x a ].
  - cbn [app]. destruct b; auto. rewrite lenN_nil, N.add_0_r. reflexivity.
  - destruct b as [ | y b ]; [ now rewrite app_nil_r | ]. cbn [app].
    change (x :: a ++ y :: b) with ((x :: a) ++ y :: b). now rewrite overwrite_app.
Qed.

(** Two writes are one. *)
Lemma sink_write_app a b s : (let@ _u := sink_write a in sink_write b) s = sink_write (a ++ b) s.
Proof.
  unfold sbind. destruct (sk_fuel s) as [ n | ] eqn:F.
  - rewrite (sink_write_some s a n F), (sink_write_some s (a ++ b) n F). rewrite lenN_app.
    destruct (N.leb_spec (lenN a) n).
    + rewrite (sink_write_some (put s a (Some (n - lenN a))) b (n - lenN a) eq_refl).
      destruct (N.leb_spec (lenN b) (n - lenN a)).
      * replace (lenN a + lenN b <=? n) with true by lia. rewrite put_put. do 3 f_equal. lia.
      * replace (lenN a + lenN b <=? n) with false by lia. rewrite put_put. f_equal. f_equal.
        rewrite takeN_app_gen. now rewrite (takeN_all n a) by lia.
    + replace (lenN a + lenN b <=? n) with false by lia. f_equal. f_equal.
      rewrite takeN_app_gen. replace (n - lenN a) with 0 by lia. now rewrite takeN_0, app_nil_r.
  - rewrite (sink_write_none s a F), (sink_write_none s (a ++ b) F), (sink_write_none (put s a None) b eq_refl).
    now rewrite put_put.
Qed.

Lemma sbind_assoc {A B C} (m : sink -> res A * sink) (k : A -> sink -> res B * sink) (k' : B -> sink -> res C * sink) s :
  sbind (sbind m k) k' s = sbind m (fun a => sbind (k a) k') s.
Proof. unfold sbind. destruct (m s) as ([ a | e | ], s'); auto. Qed.

Lemma sink_write_then {B} a b (k : sink -> res B * sink) s :
  (let@ _u := sink_write a in let@ _v := sink_write b in k) s = (let@ _u := sink_write (a ++ b) in k) s.
Proof.
  rewrite <- (sbind_assoc (sink_write a) (fun _ => sink_write b) (fun _ => k)).
  unfold sbind at 1 3. now rewrite sink_write_app.
Qed.

Lemma sret_bind {A B} (r : res A) (k : A -> sink -> res B * sink) s :
  sbind (sret r) k s = match r with Ok a => k a s | Err e => (Err e, s) | Panic => (Panic, s) end.
Proof. reflexivity. Qed.

(** Writing at the end of the data appends. *)
Definition at_end (s : sink) : Prop := sk_pos s = lenN (sk_data s).
Lemma overwrite_end d bs : overwrite d (lenN d) bs = d ++ bs.
Proof.
  unfold overwrite. rewrite takeN_all by lia. rewrite N.sub_diag, repeatN_0.
  rewrite dropN_all by lia. now rewrite app_nil_r.
Qed.
Lemma put_end s bs f : at_end s -> put s bs f = {| sk_data := sk_data s ++ bs; sk_pos := lenN (sk_data s ++ bs); sk_fuel := f |}.
Proof.
  intros H. unfold put. rewrite H. rewrite overwrite_end. rewrite lenN_app. f_equal.
  destruct bs; auto. now rewrite app_nil_r.
Qed.
Lemma at_end_put s bs f : at_end s -> at_end (put s bs f).
Proof. intros H. rewrite put_end; auto. reflexivity. Qed.

(** Success of a write with any budget. *)
Lemma sink_write_ok bs s s' : sink_write bs s = (Ok tt, s') -> s' = put s bs (sk_fuel s') .
Proof.
  destruct (sk_fuel s) as [ n | ] eqn:F.
  - rewrite (sink_write_some s bs n F). destruct (lenN bs <=? n); intros [= <-]. reflexivity.
  - rewrite (sink_write_none s bs F). intros [= <-]. reflexivity.
Qed.
