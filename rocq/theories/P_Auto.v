(** Default dtypes are the documented ones: proofs. *)
From Verif Require Import M_Base M_Text M_TypeStr M_IO M_Header M_Serialize S_TypeStr S_DType S_Elem S_Auto.
From Verif Require Import P_Base P_Text P_TypeStr P_Header P_Elem P_Codec P_Default.
Open Scope N_scope.

Lemma default_exact c t : forall d, default_dtype c t = Some (Ok d) <-> default_of (order_of c) t d.
Proof.
  assert (He : of_machine c = order_of c) by reflexivity.
  assert (Hn : order_of c <> Irrelevant) by (unfold order_of; destruct (c_big c); discriminate).
  induction t as [ t Ha Hs | n t IH | fs IH ] using rty_rect'; intros d.
  - split.
    + intros H. destruct t; try (now destruct (Ha _ _ eq_refl)); try (now destruct (Hs _ eq_refl)); try discriminate H; cbn [default_dtype] in H.
      all: unfold auto_scalar, with_auto_endianness, validate in H; try (destruct signed); try destruct w; cbn in H; rewrite ?He in H; destruct (order_of c) eqn:E; try contradiction; cbn in H;
        apply Some_inj, Ok_inj in H as <-; econstructor; discriminate.
    + intros H. destruct t; try (now destruct (Ha _ _ eq_refl)); try (now destruct (Hs _ eq_refl)); inversion H; subst; cbn [default_dtype].
      all: unfold auto_scalar, with_auto_endianness, validate; try destruct w; try contradiction; cbn; rewrite ?He; destruct (order_of c) eqn:E; try contradiction; reflexivity.
  - cbn [default_dtype]. split.
    + destruct (default_dtype c t) as [ [ d' | e | ] | ] eqn:E; try discriminate. cbn. intros H. apply Some_inj, Ok_inj in H as <-. constructor. now apply IH.
    + intros H. inversion H as [ | | | | | | | | | | ? ? d' Hd | | ]; subst. apply IH in Hd. now rewrite Hd.
  - rewrite default_struct. assert (G : forall ds, defaults c fs = Some (Ok ds) <-> default_of (order_of c) (RStruct fs) (DRecord ds)).
    { induction IH as [ | (name & t) fs Ht IH' IHfs ]; intros ds; cbn [defaults]; fold (defaults c).
      - split; [ intros H; apply Some_inj, Ok_inj in H as <-; constructor | intros H; now inversion H ].
      - cbn [snd] in Ht. split.
        + destruct (default_dtype c t) as [ [ d' | e | ] | ] eqn:E; try discriminate; destruct (defaults c fs) as [ [ ds' | e' | ] | ] eqn:E'; try discriminate.
          cbn. intros H. apply Some_inj, Ok_inj in H as <-. constructor; [ now apply Ht | now apply IHfs ].
        + intros H. inversion H as [ | | | | | | | | | | | | ? ? d' ? ds' Hd Hds ]; subst. apply Ht in Hd. apply IHfs in Hds. now rewrite Hd, Hds. }
    split.
    + destruct (defaults c fs) as [ [ ds | e | ] | ]; try discriminate. cbn. intros H. apply Some_inj, Ok_inj in H as <-. now apply G.
    + intros H. assert (E : exists ds, d = DRecord ds) by (inversion H; eauto). destruct E as (ds & ->). apply G in H. now rewrite H.
Qed.
Lemma default_kinds c t : (exists d, default_dtype c t = Some (Ok d)) \/ (default_dtype c t = None /\ without_default t).
Proof.
  assert (Hs : forall code n, match valid_sizes code with Some l => existsb (N.eqb n) l = true | None => True end -> has_units code = false -> exists d, auto_scalar c code n = Some (Ok d)).
  { intros code n Hv Hu. unfold auto_scalar, with_auto_endianness, validate. cbn [ts_char ts_size ts_endianness ts_units]. rewrite Hu.
    unfold of_machine. destruct (requires_endianness code n), (c_big c); cbn [andb]; destruct (valid_sizes code) as [ l | ]; try rewrite Hv; cbn; eauto. }
  induction t as [ t Ha Hst | n t IH | fs IH ] using rty_rect'.
  - destruct t; try (now destruct (Ha _ _ eq_refl)); try (now destruct (Hst _ eq_refl)); cbn [default_dtype]; try (right; split; [ reflexivity | constructor ]).
    all: left; try destruct signed; apply Hs; try destruct w; reflexivity || exact I.
  - cbn [default_dtype]. destruct IH as [ (d & ->) | (-> & H) ]; [ left; cbn; eauto | right; split; [ reflexivity | now constructor ] ].
  - rewrite default_struct. assert (G : (exists ds, defaults c fs = Some (Ok ds)) \/ (defaults c fs = None /\ exists name t, In (name, t) fs /\ without_default t)).
    { induction IH as [ | (name & t) fs Ht IH' IHfs ]; cbn [defaults]; fold (defaults c); [ eauto | ]. cbn [snd] in Ht.
      destruct Ht as [ (d & ->) | (-> & H) ]; [ | right; split; [ reflexivity | exists name, t; split; [ now left | auto ] ] ].
      destruct IHfs as [ (ds & ->) | (-> & n' & t' & Hin & Hw) ]; [ left; cbn; eauto | right; split; [ reflexivity | exists n', t'; split; [ now right | auto ] ] ]. }
    destruct G as [ (ds & ->) | (-> & name & t & Hin & Hw) ]; [ left; cbn; eauto | right; split; [ reflexivity | now apply (without_field fs name t) ] ].
Qed.
Lemma default_not_without e t d : default_of e t d -> ~ without_default t.
Proof.
  induction 1 as [ | | | | | | | | | | n t d H IH | | name t d fs ds H IH H' IH' ]; intros W; inversion W as [ | | | | | | n' t' Hw | fs' name' t' Hin Hw ]; subst; auto; try contradiction.
  destruct Hin as [ Heq | Hin ]; [ apply pair_inj in Heq as (-> & ->); auto | ]. apply IH'. now apply (without_field fs name' t').
Qed.
Lemma default_total c t : default_dtype c t = None <-> without_default t.
Proof.
  destruct (default_kinds c t) as [ (d & H) | (H & Hw) ].
  - split; [ intros E; rewrite E in H; discriminate H | ]. intros W. apply default_exact in H. now apply default_not_without in H.
  - split; auto.
Qed.
