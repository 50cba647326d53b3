(** Bracket balance of parsed literals, for texts without string literals. *)
From Verif Require Import M_Base M_Text M_PyLit P_Base P_Text P_PyLit P_Parse.
Open Scope N_scope.

Definition quiet (s : text) : Prop := Forall (fun c => c <> 39 /\ c <> 34) s.
Fixpoint weight (w : N -> Z) (s : text) : Z := match s with [] => 0 | c :: r => w c + weight w r end.
(** Opening and closing brackets cancel; only brackets and stars count. *)
Definition balanced (w : N -> Z) : Prop :=
  (w 40%N + w 41%N = 0)%Z /\ (w 91%N + w 93%N = 0)%Z /\ (w 123%N + w 125%N = 0)%Z
  /\ forall c, c <> 40 -> c <> 41 -> c <> 91 -> c <> 93 -> c <> 123 -> c <> 125 -> c <> 42 -> w c = 0%Z.

Lemma weight_app w a b : weight w (a ++ b) = (weight w a + weight w b)%Z.
Proof. induction a as [ | c a IH ]; cbn [app weight]; [ reflexivity | lia ]. Qed.
Lemma quiet_tail a b : tail_of a b -> quiet b -> quiet a.
Proof. intros (p & ->) H. now apply Forall_app in H. Qed.
Lemma quiet_after a b : after a b -> quiet b -> quiet a.
Proof. intros H. apply quiet_tail. now apply after_weak. Qed.

Section Weights.
  Context (w : N -> Z) (Hw : balanced w).
  Local Notation W := (weight w).

  Lemma plain_zero c : c <> 40 -> c <> 41 -> c <> 91 -> c <> 93 -> c <> 123 -> c <> 125 -> c <> 42 -> w c = 0%Z.
  Proof. apply Hw. Qed.
  Lemma skip_ws_weight s : W (skip_ws s) = W s.
  Proof.
    induction s as [ | c s IH ]; [ reflexivity | ]. cbn [skip_ws]. destruct (is_blank c) eqn:E; [ | reflexivity ]. cbn [weight].
    unfold is_blank in E. rewrite (plain_zero c) by lia. lia.
  Qed.
  Lemma skip_ws_cons s c r : skip_ws s = c :: r -> W s = (w c + W r)%Z.
  Proof. intros E. rewrite <- skip_ws_weight, E. reflexivity. Qed.
  Lemma p_digits_weight ok : (forall c, ok c = true -> is_digit c = true) -> forall n s, (List.length s <= n)%nat -> W (snd (p_digits ok s)) = W s.
  Proof.
    intros Hok. assert (Hz : forall c, ok c = true -> w c = 0%Z).
    { intros c Hc. apply Hok in Hc. unfold is_digit in Hc. apply plain_zero; lia. }
    induction n as [ | n IH ]; intros [ | c r ] Hn; cbn [List.length] in Hn; try lia; try reflexivity.
    cbn [p_digits]. destruct (ok c) eqn:E.
    - specialize (IH r ltac:(lia)). destruct (p_digits ok r). cbn [snd weight] in *. rewrite (Hz c E). lia.
    - destruct (N.eqb_spec c 95) as [ -> | ]; [ | reflexivity ]. destruct r as [ | c2 r2 ]; [ reflexivity | ].
      destruct (ok c2) eqn:E2; [ | reflexivity ]. cbn [List.length] in Hn. specialize (IH r2 ltac:(lia)). destruct (p_digits ok r2). cbn [snd weight] in *.
      rewrite (Hz c2 E2), (plain_zero 95) by lia. lia.
  Qed.
  Lemma p_nat_weight s k r : p_nat s = Some (k, r) -> W s = W r.
  Proof.
    unfold p_nat. destruct s as [ | c s ]; [ discriminate | ]. cbn [weight].
    destruct (N.eqb_spec c 48) as [ -> | ].
    - pose proof (p_digits_weight (N.eqb 48)) as H. specialize (H ltac:(intros c Hc; unfold is_digit; lia) _ s (Nat.le_refl _)).
      destruct (p_digits (N.eqb 48) s). cbn [snd] in H. intros E. injection E as _ <-. rewrite (plain_zero 48) by lia. lia.
    - destruct (is_digit c) eqn:E; [ | discriminate ]. pose proof (p_digits_weight is_digit (fun c H => H) _ s (Nat.le_refl _)) as H.
      destruct (p_digits is_digit s). cbn [snd] in H. intros E'. injection E' as _ <-. unfold is_digit in E. rewrite (plain_zero c) by lia. lia.
  Qed.
  Lemma p_int_weight s : forall neg z r, p_int neg s = Some (z, r) -> W s = W r.
  Proof.
    induction s as [ | c s IH ]; intros neg z r H; [ discriminate | ]. cbn [p_int] in H.
    assert (Hc : w c = 0%Z -> W s = W r -> W (c :: s) = W r) by (cbn [weight]; lia).
    destruct (N.eqb_spec c (chr "-")) as [ -> | ]. { apply IH in H. apply Hc; auto. apply plain_zero; discriminate. }
    destruct (N.eqb_spec c (chr "+")) as [ -> | ]. { apply IH in H. apply Hc; auto. apply plain_zero; discriminate. }
    destruct (is_blank c) eqn:E. { apply IH in H. apply Hc; auto. unfold is_blank in E. apply plain_zero; lia. }
    destruct (p_nat (c :: s)) as [ (k, rest) | ] eqn:En; [ | discriminate ]. apply p_nat_weight in En. injection H as _ <-. exact En.
  Qed.
  Lemma p_word_weight wd s r : p_word wd s = Some r -> W wd = 0%Z -> W s = W r.
  Proof. intros H Hz. apply p_word_tail in H as ->. rewrite weight_app. lia. Qed.
  Lemma p_string_quiet s : quiet s -> p_string s = None.
  Proof. destruct s as [ | q r ]; [ reflexivity | ]. intros H. apply Forall_cons_iff in H as (H & _). unfold p_string. replace ((q =? 39) || (q =? 34)) with false by lia. reflexivity. Qed.

  Definition wvalue (f : nat) : Prop := forall s v r, quiet s -> p_value f s = Some (v, r) -> W s = W r.
  Definition witems (f : nat) : Prop := forall close s v r, quiet s -> p_items f close s = Some (v, r) -> W s = (w close + W r)%Z.
  Definition wdict (f : nat) : Prop := forall s v r, quiet s -> p_dict f s = Some (v, r) -> W s = (w 125%N + W r)%Z.

  Lemma comma_zero : w 44 = 0%Z. Proof. apply plain_zero; lia. Qed.
  Lemma colon_zero : w 58 = 0%Z. Proof. apply plain_zero; lia. Qed.
  Lemma value_quiet f s v r : p_value f s = Some (v, r) -> quiet s -> quiet r.
  Proof. intros H. apply quiet_after. now apply (proj1 (all_good f)) in H. Qed.
  Lemma skip_quiet s : quiet s -> quiet (skip_ws s).
  Proof. apply quiet_tail, skip_ws_tail. Qed.
  Lemma skip_quiet_cons s c r : skip_ws s = c :: r -> quiet s -> quiet r.
  Proof. intros E H. apply skip_quiet in H. rewrite E in H. now apply Forall_cons_iff in H. Qed.

  Lemma wvalue_step f : wvalue f -> witems f -> wdict f -> wvalue (S f).
  Proof.
    intros HV HI HD s v r Hq H. cbn [p_value] in H. destruct s as [ | c r0 ]; [ discriminate | ].
    assert (Hq0 : quiet r0) by now apply Forall_cons_iff in Hq.
    rewrite (p_string_quiet (c :: r0) Hq), (p_string_quiet r0 Hq0) in H.
    destruct ((c =? 39) || (c =? 34)); [ discriminate | ]. destruct ((c =? chr "u") || (c =? chr "U")); [ discriminate | ].
    destruct (is_digit c || (c =? chr "+") || (c =? chr "-")).
    { destruct (p_int false (c :: r0)) as [ (z, rest) | ] eqn:E; [ | discriminate ]. injection H as <- <-. exact (p_int_weight _ _ _ _ E). }
    destruct Hw as (Hp & Hs & Hb & _). pose proof comma_zero as H44. pose proof colon_zero as H58. cbn [weight].
    destruct (N.eqb_spec c (chr "(")) as [ -> | Hc1 ].
    { change (chr "(") with 40. destruct (skip_ws r0) as [ | c1 r1 ] eqn:E1; [ discriminate | ]. pose proof (skip_ws_cons _ _ _ E1) as W1. pose proof (skip_quiet_cons _ _ _ E1 Hq0) as Q1.
      destruct (N.eqb_spec c1 (chr ")")) as [ -> | Hc2 ]. { injection H as <- <-. change (chr ")") with 41 in *. lia. }
      assert (Q1' : quiet (c1 :: r1)) by (rewrite <- E1; now apply skip_quiet).
      destruct (p_value f (c1 :: r1)) as [ (v1, r2) | ] eqn:E2; [ | discriminate ]. pose proof (HV _ _ _ Q1' E2) as W2. cbn [weight] in W2.
      pose proof (value_quiet _ _ _ _ E2 Q1') as Q2. destruct (skip_ws r2) as [ | c3 r3 ] eqn:E3; [ discriminate | ]. pose proof (skip_ws_cons _ _ _ E3) as W3.
      destruct (N.eqb_spec c3 (chr ",")) as [ -> | ]; [ | discriminate ]. change (chr ",") with 44 in *.
      destruct (p_items f (chr ")") (skip_ws r3)) as [ (vs, r4) | ] eqn:E4; [ | discriminate ]. injection H as <- <-.
      apply HI in E4; [ | now apply skip_quiet, (skip_quiet_cons _ _ _ E3) ]. rewrite skip_ws_weight in E4. change (chr ")") with 41 in *. lia. }
    destruct (N.eqb_spec c (chr "[")) as [ -> | Hc2 ].
    { change (chr "[") with 91. destruct (p_items f (chr "]") (skip_ws r0)) as [ (vs, r4) | ] eqn:E4; [ | discriminate ]. injection H as <- <-.
      apply HI in E4; [ | now apply skip_quiet ]. rewrite skip_ws_weight in E4. change (chr "]") with 93 in *. lia. }
    destruct (N.eqb_spec c (chr "{")) as [ -> | Hc3 ].
    { change (chr "{") with 123. destruct (skip_ws r0) as [ | c1 r1 ] eqn:E1; [ discriminate | ]. pose proof (skip_ws_cons _ _ _ E1) as W1. pose proof (skip_quiet_cons _ _ _ E1 Hq0) as Q1.
      destruct (N.eqb_spec c1 (chr "}")) as [ -> | Hc4 ]. { injection H as <- <-. change (chr "}") with 125 in *. lia. }
      assert (Q1' : quiet (c1 :: r1)) by (rewrite <- E1; now apply skip_quiet).
      destruct (p_value f (c1 :: r1)) as [ (v1, r2) | ] eqn:E2; [ | discriminate ]. pose proof (HV _ _ _ Q1' E2) as W2. cbn [weight] in W2.
      pose proof (value_quiet _ _ _ _ E2 Q1') as Q2. destruct (skip_ws r2) as [ | c3 r3 ] eqn:E3; [ discriminate | ]. pose proof (skip_ws_cons _ _ _ E3) as W3.
      pose proof (skip_quiet_cons _ _ _ E3 Q2) as Q3.
      destruct (N.eqb_spec c3 (chr ":")) as [ -> | ].
      - change (chr ":") with 58 in *. destruct (p_value f (skip_ws r3)) as [ (v2, r4) | ] eqn:E4; [ | discriminate ].
        pose proof (HV _ _ _ (skip_quiet _ Q3) E4) as W4. rewrite skip_ws_weight in W4. pose proof (value_quiet _ _ _ _ E4 (skip_quiet _ Q3)) as Q4.
        destruct (skip_ws r4) as [ | c5 r5 ] eqn:E5; [ discriminate | ]. pose proof (skip_ws_cons _ _ _ E5) as W5. pose proof (skip_quiet_cons _ _ _ E5 Q4) as Q5.
        destruct (N.eqb_spec c5 (chr "}")) as [ -> | ]. { injection H as <- <-. change (chr "}") with 125 in *. lia. }
        destruct (N.eqb_spec c5 (chr ",")) as [ -> | ]; [ | discriminate ]. change (chr ",") with 44 in *.
        destruct (p_dict f (skip_ws r5)) as [ (kvs, r6) | ] eqn:E6; [ | discriminate ]. injection H as <- <-.
        apply HD in E6; [ | now apply skip_quiet ]. rewrite skip_ws_weight in E6. lia.
      - destruct (N.eqb_spec c3 (chr "}")) as [ -> | ]. { injection H as <- <-. change (chr "}") with 125 in *. lia. }
        destruct (N.eqb_spec c3 (chr ",")) as [ -> | ]; [ | discriminate ]. change (chr ",") with 44 in *.
        destruct (p_items f (chr "}") (skip_ws r3)) as [ (kvs, r6) | ] eqn:E6; [ | discriminate ]. injection H as <- <-.
        apply HI in E6; [ | now apply skip_quiet ]. rewrite skip_ws_weight in E6. change (chr "}") with 125 in *. lia. }
    assert (Hz : forall k, p_word k (c :: r0) = Some r -> W k = 0%Z -> (w c + W r0)%Z = W r) by (intros k Hk Hk0; exact (p_word_weight _ _ _ Hk Hk0)).
    destruct (c =? chr "T"). { destruct (p_word (lit "True") (c :: r0)) eqn:E; [ | discriminate ]. injection H as <- <-. apply (Hz _ E). cbn. rewrite !plain_zero by lia. reflexivity. }
    destruct (c =? chr "F"). { destruct (p_word (lit "False") (c :: r0)) eqn:E; [ | discriminate ]. injection H as <- <-. apply (Hz _ E). cbn. rewrite !plain_zero by lia. reflexivity. }
    destruct (c =? chr "N"). { destruct (p_word (lit "None") (c :: r0)) eqn:E; [ | discriminate ]. injection H as <- <-. apply (Hz _ E). cbn. rewrite !plain_zero by lia. reflexivity. }
    discriminate.
  Qed.
  Lemma witems_step f : wvalue f -> witems f -> witems (S f).
  Proof.
    intros HV HI close s v r Hq H. cbn [p_items] in H. destruct s as [ | c r0 ]; [ discriminate | ]. pose proof comma_zero as H44.
    destruct (N.eqb_spec c close) as [ -> | ]. { injection H as <- <-. cbn [weight]. lia. }
    destruct (p_value f (c :: r0)) as [ (v1, r1) | ] eqn:E1; [ | discriminate ]. pose proof (HV _ _ _ Hq E1) as W1. pose proof (value_quiet _ _ _ _ E1 Hq) as Q1.
    destruct (skip_ws r1) as [ | c2 r2 ] eqn:E2; [ discriminate | ]. pose proof (skip_ws_cons _ _ _ E2) as W2. pose proof (skip_quiet_cons _ _ _ E2 Q1) as Q2.
    destruct (N.eqb_spec c2 close) as [ -> | ]. { injection H as <- <-. lia. }
    destruct (N.eqb_spec c2 (chr ",")) as [ -> | ]; [ | discriminate ]. change (chr ",") with 44 in *.
    destruct (p_items f close (skip_ws r2)) as [ (vs, r3) | ] eqn:E3; [ | discriminate ]. injection H as <- <-.
    apply HI in E3; [ | now apply skip_quiet ]. rewrite skip_ws_weight in E3. lia.
  Qed.
  Lemma wdict_step f : wvalue f -> wdict f -> wdict (S f).
  Proof.
    intros HV HD s v r Hq H. cbn [p_dict] in H. destruct s as [ | c r0 ]; [ discriminate | ]. pose proof comma_zero as H44. pose proof colon_zero as H58.
    destruct (N.eqb_spec c (chr "}")) as [ -> | ]. { injection H as <- <-. cbn [weight]. change (chr "}") with 125. lia. }
    destruct (p_value f (c :: r0)) as [ (k, r1) | ] eqn:E1; [ | discriminate ]. pose proof (HV _ _ _ Hq E1) as W1. pose proof (value_quiet _ _ _ _ E1 Hq) as Q1.
    destruct (skip_ws r1) as [ | c2 r2 ] eqn:E2; [ discriminate | ]. pose proof (skip_ws_cons _ _ _ E2) as W2. pose proof (skip_quiet_cons _ _ _ E2 Q1) as Q2.
    destruct (N.eqb_spec c2 (chr ":")) as [ -> | ]; [ | discriminate ]. change (chr ":") with 58 in *.
    destruct (p_value f (skip_ws r2)) as [ (v1, r3) | ] eqn:E3; [ | discriminate ].
    pose proof (HV _ _ _ (skip_quiet _ Q2) E3) as W3. rewrite skip_ws_weight in W3. pose proof (value_quiet _ _ _ _ E3 (skip_quiet _ Q2)) as Q3.
    destruct (skip_ws r3) as [ | c4 r4 ] eqn:E4; [ discriminate | ]. pose proof (skip_ws_cons _ _ _ E4) as W4. pose proof (skip_quiet_cons _ _ _ E4 Q3) as Q4.
    destruct (N.eqb_spec c4 (chr "}")) as [ -> | ]. { injection H as <- <-. change (chr "}") with 125 in *. lia. }
    destruct (N.eqb_spec c4 (chr ",")) as [ -> | ]; [ | discriminate ]. change (chr ",") with 44 in *.
    destruct (p_dict f (skip_ws r4)) as [ (kvs, r5) | ] eqn:E5; [ | discriminate ]. injection H as <- <-.
    apply HD in E5; [ | now apply skip_quiet ]. rewrite skip_ws_weight in E5. lia.
  Qed.
  Lemma weights f : wvalue f /\ witems f /\ wdict f.
  Proof.
    induction f as [ | f (HV & HI & HD) ].
    - split; [ | split ]; [ intros s v r _ H | intros close s v r _ H | intros s v r _ H ]; discriminate.
    - split; [ | split ]; [ now apply wvalue_step | now apply witems_step | now apply wdict_step ].
  Qed.
End Weights.
