(** Elementary facts about lists, lengths and results. *)
From Coq Require Export Lia ZifyBool ZifyNat ZifyN.
From Verif Require Import M_Base.
Open Scope N_scope.

Ltac Zify.zify_post_hook ::= Z.div_mod_to_equations.

Lemma lenN_nil {A} : lenN (@nil A) = 0.
Proof. reflexivity. Qed.
Lemma lenN_cons {A} (x : A) l : lenN (x :: l) = 1 + lenN l.
Proof. unfold lenN; cbn [List.length]; lia. Qed.
Lemma lenN_app {A} (a b : list A) : lenN (a ++ b) = lenN a + lenN b.
Proof. unfold lenN; rewrite app_length; lia. Qed.
Lemma lenN_rev {A} (a : list A) : lenN (rev a) = lenN a.
Proof. unfold lenN; now rewrite rev_length. Qed.
Lemma lenN_map {A B} (f : A -> B) l : lenN (map f l) = lenN l.
Proof. unfold lenN; now rewrite map_length. Qed.
Lemma lenN_repeatN {A} (x : A) n : lenN (repeatN x n) = n.
Proof. unfold lenN, repeatN; rewrite repeat_length; lia. Qed.
Lemma lenN_takeN {A} n (l : list A) : lenN (takeN n l) = N.min n (lenN l).
Proof. unfold lenN, takeN; rewrite firstn_length; lia. Qed.
Lemma lenN_dropN {A} n (l : list A) : lenN (dropN n l) = lenN l - n.
Proof. unfold lenN, dropN; rewrite skipn_length; lia. Qed.
Lemma lenN_0 {A} (l : list A) : lenN l = 0 -> l = [].
Proof. destruct l; auto; rewrite lenN_cons; lia. Qed.

Lemma takeN_dropN {A} n (l : list A) : takeN n l ++ dropN n l = l.
Proof. apply firstn_skipn. Qed.
Lemma takeN_app {A} n (a b : list A) : lenN a = n -> takeN n (a ++ b) = a.
Proof.
  intros <-. unfold takeN, lenN. rewrite Nat2N.id, firstn_app, Nat.sub_diag, firstn_all.
  now rewrite app_nil_r.
Qed.
Lemma dropN_app {A} n (a b : list A) : lenN a = n -> dropN n (a ++ b) = b.
Proof.
  intros <-. unfold dropN, lenN. now rewrite Nat2N.id, skipn_app, Nat.sub_diag, skipn_all.
Qed.
Lemma takeN_app_gen {A} n (a b : list A) : takeN n (a ++ b) = takeN n a ++ takeN (n - lenN a) b.
Proof. unfold takeN, lenN. rewrite firstn_app. do 2 f_equal; lia. Qed.
Lemma dropN_app_gen {A} n (a b : list A) : dropN n (a ++ b) = dropN n a ++ dropN (n - lenN a) b.
Proof. unfold dropN, lenN. rewrite skipn_app. do 2 f_equal; lia. Qed.
Lemma takeN_all {A} n (l : list A) : lenN l <= n -> takeN n l = l.
Proof. unfold lenN, takeN; intros; apply firstn_all2; lia. Qed.
Lemma dropN_all {A} n (l : list A) : lenN l <= n -> dropN n l = [].
Proof. unfold lenN, dropN; intros; apply skipn_all2; lia. Qed.
Lemma takeN_0 {A} (l : list A) : takeN 0 l = [].
Proof. reflexivity. Qed.
Lemma dropN_0 {A} (l : list A) : dropN 0 l = l.
Proof. reflexivity. Qed.
Lemma dropN_dropN {A} a b (l : list A) : dropN a (dropN b l) = dropN (a + b) l.
Proof.
  unfold dropN. replace (N.to_nat (a + b)) with (N.to_nat b + N.to_nat a)%nat by lia.
  generalize (N.to_nat b) as m, (N.to_nat a) as k. clear.
  intros m; revert l; induction m; intros l k; cbn; auto.
  destruct l; cbn; auto. now rewrite skipn_nil.
Qed.
Lemma takeN_takeN {A} a b (l : list A) : takeN a (takeN b l) = takeN (N.min a b) l.
Proof. unfold takeN. rewrite firstn_firstn. f_equal; lia. Qed.
Lemma takeN_add {A} a b (l : list A) : takeN (a + b) l = takeN a l ++ takeN b (dropN a l).
Proof.
  unfold takeN, dropN. replace (N.to_nat (a + b)) with (N.to_nat a + N.to_nat b)%nat by lia.
  generalize (N.to_nat b) as m, (N.to_nat a) as k. clear.
  intros m k; revert l; induction k; intros l; cbn; auto.
  destruct l; cbn; [ now rewrite firstn_nil | now rewrite IHk ].
Qed.

Lemma repeatN_0 {A} (x : A) : repeatN x 0 = [].
Proof. reflexivity. Qed.
Lemma repeatN_add {A} (x : A) a b : repeatN x (a + b) = repeatN x a ++ repeatN x b.
Proof. unfold repeatN. rewrite N2Nat.inj_add. apply repeat_app. Qed.
Lemma repeatN_succ {A} (x : A) n : repeatN x (1 + n) = x :: repeatN x n.
Proof. unfold repeatN. rewrite N2Nat.inj_add. reflexivity. Qed.
Lemma in_repeatN {A} (x y : A) n : In y (repeatN x n) -> y = x.
Proof. apply repeat_spec. Qed.
Lemma Forall_repeatN {A} (P : A -> Prop) x n : P x -> Forall P (repeatN x n).
Proof. intros H. apply Forall_forall. intros y Hy. now apply in_repeatN in Hy; subst. Qed.

Lemma app_inj_lenN {A} (a b c d : list A) : lenN a = lenN c -> a ++ b = c ++ d -> a = c /\ b = d.
Proof.
  intros Hl He. split.
  - rewrite <- (takeN_app (lenN a) a b), He by reflexivity. rewrite takeN_app; auto.
  - rewrite <- (dropN_app (lenN a) a b), He by reflexivity. rewrite dropN_app; auto.
Qed.

Lemma Forall_takeN {A} (P : A -> Prop) n l : Forall P l -> Forall P (takeN n l).
Proof. intros H. rewrite <- (takeN_dropN n l) in H. now apply Forall_app in H. Qed.
Lemma Forall_dropN {A} (P : A -> Prop) n l : Forall P l -> Forall P (dropN n l).
Proof. intros H. rewrite <- (takeN_dropN n l) in H. now apply Forall_app in H. Qed.

Lemma eqb_list_refl a : eqb_list a a = true.
Proof. induction a; cbn; auto. now rewrite N.eqb_refl. Qed.
Lemma eqb_list_eq a b : eqb_list a b = true <-> a = b.
Proof.
  split; [ | intros ->; apply eqb_list_refl ].
  revert b; induction a; destruct b; cbn; try discriminate; auto.
  rewrite andb_true_iff, N.eqb_eq. intros [-> H]. f_equal; auto.
Qed.
Lemma eqb_list_neq a b : eqb_list a b = false <-> a <> b.
Proof.
  destruct (eqb_list a b) eqn:E.
  - apply eqb_list_eq in E. split; congruence.
  - split; auto. intros _ ->. now rewrite eqb_list_refl in E.
Qed.

Lemma bind_ok {A B} (m : res A) (k : A -> res B) b : bind m k = Ok b <-> exists a, m = Ok a /\ k a = Ok b.
Proof.
  destruct m; cbn; split; try (intros (? & ? & ?); congruence); try discriminate.
  intros H; eauto.
Qed.

Lemma mapM_app {A B} (f : A -> res B) l1 l2 :
  mapM f (l1 ++ l2) = let* a := mapM f l1 in let* b := mapM f l2 in Ok (a ++ b).
Proof.
  induction l1; cbn.
  - destruct (mapM f l2); auto.
  - destruct (f a); cbn; auto. rewrite IHl1. destruct (mapM f l1); cbn; auto. destruct (mapM f l2); auto.
Qed.

Lemma nth_error_lenN {A} (l : list A) i : N.of_nat i < lenN l -> exists x, nth_error l i = Some x.
Proof.
  unfold lenN; intros H. destruct (nth_error l i) eqn:E; eauto. apply nth_error_None in E. lia.
Qed.

(** [injection] normalises its results; these do not. *)
Lemma Ok_inj {A} (a b : A) : Ok a = Ok b -> a = b.
Proof. congruence. Qed.
Lemma pair_inj {A B} (a a' : A) (b b' : B) : (a, b) = (a', b') -> a = a' /\ b = b'.
Proof. intros H. split; congruence. Qed.
