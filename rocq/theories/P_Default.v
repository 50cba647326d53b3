(** Default dtypes. *)
From Verif Require Import M_Base M_Text M_TypeStr M_IO M_Header M_Read M_Serialize M_NpyReader S_TypeStr S_DType S_Shape S_Header S_Text S_Elem
  P_Base P_Text P_TypeStr P_IO P_Shape P_Header P_Number P_Elem P_ReadOne P_WriteOne P_Codec P_Sizes.
Open Scope N_scope.

Definition defaults (c : cfg) :=
  fix go (fs : list (text * rty)) : option (res (list (text * dtype))) :=
    match fs with
    | [] => Some (Ok [])
    | (name, t) :: fs' =>
      match default_dtype c t, go fs' with
      | Some r, Some rs => Some (let* d := r in let* ds := rs in Ok ((name, d) :: ds))
      | _, _ => None
      end
    end.
Lemma default_struct c fs : default_dtype c (RStruct fs) = match defaults c fs with Some r => Some (let* fs := r in Ok (DRecord fs)) | None => None end.
Proof. reflexivity. Qed.

Lemma auto_scalar_ok c code n : legal {| ts_endianness := if requires_endianness code n then of_machine c else Irrelevant; ts_char := code; ts_size := n; ts_units := None |} ->
  n < 2 ^ 64 -> code <> TObject ->
  auto_scalar c code n = Some (Ok (DPlain {| ts_endianness := if requires_endianness code n then of_machine c else Irrelevant; ts_char := code; ts_size := n; ts_units := None |})).
Proof.
  intros Hl Hn Ho. unfold auto_scalar, with_auto_endianness. cbv zeta.
  rewrite (proj2 (validate_spec _ _ (Hn : ts_size {| ts_endianness := _; ts_char := _; ts_size := n; ts_units := _ |} < _) (fun H => False_ind _ (Ho H)))
    (conj eq_refl Hl)). reflexivity.
Qed.

Definition default_good (c : cfg) (t : rty) (d : dtype) : Prop :=
  wf_dtype d /\ all_orders (of_machine c) d /\ (forall dir, accepts (c_usize_max c) dir t d)
  /\ forall v, has_type t v -> units_ok v -> exists bs, encode t d v = Some bs.

Lemma default_scalar c t : wf_cfg c -> is_scalar_type t -> has_default (c_usize_max c) t ->
  exists d, default_dtype c t = Some (Ok d) /\ default_good c t d.
Proof.
  intros Hc (Ha & Hs) Hd.
  assert (Hm : forall n, n <= c_usize_max c -> n < 2 ^ 64).
  { intros n H. destruct Hc as [ Hc | Hc ]; change (2 ^ 64) with 18446744073709551616 in *; change (2 ^ 32) with 4294967296 in *; lia. }
  assert (Hw1 : forall w, wbytes w < 2 ^ 64) by (intros []; reflexivity).
  assert (Hw2 : forall w, fbytes w < 2 ^ 64) by (intros []; reflexivity).
  assert (Hw3 : forall w, 2 * cbytes w < 2 ^ 64) by (intros []; reflexivity).
  assert (He : of_machine c <> Irrelevant) by (unfold of_machine; destruct (c_big c); discriminate).
  assert (Hr : forall code n, let e := if requires_endianness code n then of_machine c else Irrelevant in e = of_machine c \/ e = Irrelevant)
    by (intros code n; cbv zeta; destruct (requires_endianness code n); auto).
  destruct t; try (now destruct Hd); try (now destruct (Ha _ _ eq_refl)); try (now destruct (Hs _ eq_refl)); cbn [default_dtype has_default] in *.
  - destruct signed; (rewrite auto_scalar_ok; [ | unfold legal; destruct w; cbn; intuition | auto | discriminate ]); eexists; (split; [ reflexivity | ]).
    all: unfold default_good; cbn [accepts wf_dtype scalar_ok ts_char ts_size]; split; [ unfold legal; destruct w; cbn; intuition | ].
    all: split; [ constructor; apply Hr | ]; split; [ intros dir; split; [ auto | discriminate ] | ].
    all: intros v Hv _; destruct v; try (now destruct Hv); cbn; eauto.
  - rewrite auto_scalar_ok; [ | unfold legal; destruct w; cbn; intuition | auto | discriminate ]; eexists; (split; [ reflexivity | ]).
    all: unfold default_good; cbn [accepts wf_dtype scalar_ok ts_char ts_size]; split; [ unfold legal; destruct w; cbn; intuition | ].
    all: split; [ constructor; apply Hr | ]; split; [ intros dir; split; [ auto | discriminate ] | ].
    all: intros v Hv _; destruct v; try (now destruct Hv); cbn; eauto.
  - rewrite auto_scalar_ok; [ | unfold legal; cbn; intuition | reflexivity | discriminate ]; eexists; (split; [ reflexivity | ]).
    all: unfold default_good; cbn [accepts wf_dtype scalar_ok ts_char ts_size]; split; [ unfold legal; cbn; intuition | ].
    all: split; [ constructor; apply Hr | ]; split; [ intros dir; split; [ auto | discriminate ] | ].
    all: intros v Hv _; destruct v; try (now destruct Hv); cbn; eauto.
  - rewrite auto_scalar_ok; [ | unfold legal; destruct w; cbn; intuition | auto | discriminate ]; eexists; (split; [ reflexivity | ]).
    all: unfold default_good; cbn [accepts wf_dtype scalar_ok ts_char ts_size]; split; [ unfold legal; destruct w; cbn; intuition | ].
    all: split; [ constructor; apply Hr | ]; split; [ intros dir; split; [ auto | discriminate ] | ].
    all: intros v Hv _; destruct v; try (now destruct Hv); cbn; eauto.
  - rewrite auto_scalar_ok; [ | unfold legal; cbn -[N.pow]; intuition | auto | discriminate ]; eexists; (split; [ reflexivity | ]).
    all: unfold default_good; cbn [accepts wf_dtype scalar_ok ts_char ts_size]; split; [ unfold legal; cbn -[N.pow]; intuition | ].
    all: split; [ constructor; apply Hr | ]; split; [ intros dir; split; auto | ].
    intros v Hv Hu; destruct v; try (now destruct Hv); cbn [has_type encode ts_size units_ok] in *.
    replace (forallb _ us) with true. { rewrite padded_ok by tauto. cbn. eauto. }
    symmetry. apply forallb_Forall. eapply Forall_impl; [ | exact Hu ]. cbv beta. intros. lia.
  - rewrite auto_scalar_ok; [ | unfold legal; cbn -[N.pow]; intuition | auto | discriminate ]; eexists; (split; [ reflexivity | ]).
    all: unfold default_good; cbn [accepts wf_dtype scalar_ok ts_char ts_size]; split; [ unfold legal; cbn -[N.pow]; intuition | ].
    all: split; [ constructor; apply Hr | ]; split; [ intros dir; split; auto | ].
    intros v Hv Hu; destruct v; try (now destruct Hv); cbn [has_type encode ts_size units_ok] in *. rewrite padded_ok by tauto. cbn. eauto.
  - assert (Hd' : n <= c_usize_max c) by lia. rewrite auto_scalar_ok; [ | unfold legal; cbn -[N.pow]; intuition | auto | discriminate ]; eexists; (split; [ reflexivity | ]).
    all: unfold default_good; cbn [accepts wf_dtype scalar_ok ts_char ts_size]; split; [ unfold legal; cbn -[N.pow]; intuition | ].
    all: split; [ constructor; apply Hr | ]; split; [ intros dir; split; auto | ].
    intros v Hv Hu; destruct v; try (now destruct Hv); cbn [has_type encode ts_size ts_char units_ok] in *. rewrite padded_ok by tauto. eauto.
Qed.

Definition units_oks := fix go (l : list val) : Prop := match l with [] => True | x :: l' => units_ok x /\ go l' end.

Lemma default_ok c t : wf_cfg c -> has_default (c_usize_max c) t -> exists d, default_dtype c t = Some (Ok d) /\ default_good c t d.
Proof.
  intros Hc. induction t as [ t Ha Hs | n t IH | fs IH ] using rty_rect'; intros Hd.
  - apply default_scalar; auto. split; auto.
  - destruct Hd as (Hn & Hd). destruct (IH Hd) as (d & E & Hw & Ho & Hacc & Henc). exists (DArray n d). cbn [default_dtype]. rewrite E. split; [ reflexivity | ].
    split; [ | split; [ | split ] ].
    + split; auto. destruct Hc as [ Hc | Hc ]; change (2 ^ 64) with 18446744073709551616 in *; change (2 ^ 32) with 4294967296 in *; lia.
    + now constructor.
    + intros dir. cbn [accepts]. auto.
    + intros v Hv Hu. destruct v; try (now destruct Hv). destruct Hv as (_ & Hl). rewrite encode_array. change (units_oks l) in Hu.
      induction Hl as [ | x l Hx Hl IHl ]; [ cbn; eauto | ]. destruct Hu as (Hu & Hus). destruct (Henc x Hx Hu) as (a & Ea). destruct (IHl Hus) as (b & Eb).
      cbn [encode_seq]. fold (encode_seq t d). rewrite Ea, Eb. eauto.
  - rewrite default_struct.
    assert (E : exists ds, defaults c fs = Some (Ok ds) /\ Forall (fun f => scalars (fst f) /\ wf_dtype (snd f)) ds /\ Forall (fun f => all_orders (of_machine c) (snd f)) ds
      /\ (forall dir, accepts_fields (c_usize_max c) dir fs ds) /\ forall l, has_types fs l -> units_oks l -> exists bs, encode_fields fs ds l = Some bs).
    { induction IH as [ | (name, t) fs Hf Hfs IHfs ].
      - exists []. split; [ reflexivity | ]. repeat split; auto. intros [ | ] H _; [ cbn; eauto | destruct H ].
      - destruct Hd as (Hname & Hdt & Hds). destruct (Hf Hdt) as (d & E & Hw & Ho & Hacc & Henc). destruct (IHfs Hds) as (ds & E' & Hw' & Ho' & Hacc' & Henc').
        exists ((name, d) :: ds). cbn [defaults]. fold (defaults c). cbn [snd] in E. rewrite E, E'. split; [ reflexivity | ].
        split; [ constructor; auto | ]. split; [ constructor; auto | ]. split; [ intros dir; cbn [accepts_fields]; repeat split; auto; apply Hacc' | ].
        intros [ | x l ] H Hu; [ destruct H | ]. destruct H as (Hx & Hl). destruct Hu as (Hu & Hus).
        destruct (Henc x Hx Hu) as (a & Ea). destruct (Henc' l Hl Hus) as (b & Eb). cbn [encode_fields]. fold encode_fields. cbn [snd] in Ea. rewrite Ea, Eb. eauto. }
    destruct E as (ds & E & Hw & Ho & Hacc & Henc). rewrite E. exists (DRecord ds). split; [ reflexivity | ]. split; [ now apply wf_record | ].
    split; [ now constructor | ]. split; [ intros dir; now rewrite accepts_struct | ].
    intros v Hv Hu. destruct v; try (now destruct Hv). rewrite has_type_struct in Hv. rewrite encode_struct. auto.
Qed.
