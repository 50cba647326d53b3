(** Everything ever written is bytes. *)
From Verif Require Import M_Base M_Text M_TypeStr M_PyLit M_IO M_Header M_Read M_Serialize M_NpyReader M_Write.
From Verif Require Import S_TypeStr S_DType S_Shape S_Header S_Elem S_Strings S_Reader S_Write
  P_Base P_Text P_TypeStr P_PyLit P_Header P_IO P_Sink P_Shape P_WriteHeader P_Number P_Elem P_ReadOne P_WriteOne P_Codec.
Open Scope N_scope.

(** Values made of bytes and characters. *)
Fixpoint clean (v : val) : Prop :=
  match v with
  | XBytes l => bytes_ok l
  | XStr l => scalars l
  | XSeq l | XRec l => (fix go (l : list val) : Prop := match l with [] => True | x :: l' => clean x /\ go l' end) l
  | _ => True
  end.
Definition clean_all : list val -> Prop := fix go (l : list val) : Prop := match l with [] => True | x :: l' => clean x /\ go l' end.
Lemma has_type_clean t : forall v, has_type t v -> clean v.
Proof.
  induction t as [ t Ha Hs | n t IH | fs IH ] using rty_rect'.
  - intros v H. destruct t, v; cbn [has_type clean] in *; try exact I; try (now destruct H);
      try (destruct (Ha _ _ eq_refl)); try (destruct (Hs _ eq_refl)); try (destruct H as (H & _)); try exact H.
  - intros v H. destruct v; try (now destruct H). destruct H as (_ & H). change (clean_all l). induction H; cbn; auto.
  - intros v H. destruct v; try (now destruct H). rewrite has_type_struct in H. change (clean_all l).
    revert l H. induction IH as [ | (name, t) fs Hf Hfs IHfs ]; intros [ | x l ] H; try exact I; try (now destruct H).
    destruct H as (Hx & Hl). split; [ now apply Hf | now apply IHfs ].
Qed.
Lemma write_bits_bytes c n sw v : bytes_ok (write_bits c n sw v).
Proof. unfold write_bits, to_ne_bytes. destruct (c_big c); [ apply Forall_rev | ]; apply le_bytes_ok. Qed.
Lemma wseq_bytes a b : bytes_ok (fst a) -> bytes_ok (fst b) -> bytes_ok (fst (wseq a b)).
Proof. intros Ha Hb. destruct a as (bs, [ [] | | ]); cbn [wseq fst] in *; auto. now apply Forall_app. Qed.
Lemma wzeros_bytes c n : bytes_ok (fst (wzeros c n)).
Proof. unfold wzeros. destruct (_ <? _); cbn [fst]; [ constructor | now apply Forall_repeatN ]. Qed.
Lemma units_bytes c sw g l : bytes_ok (fst (write_units c sw g l)).
Proof. induction l as [ | u l IH ]; cbn [write_units]; [ constructor | ]. destruct (g u); [ | constructor ]. apply wseq_bytes; [ apply write_bits_bytes | exact IH ]. Qed.
Lemma str32_bytes c sw e l : forall n, bytes_ok (fst (write_str32 c sw e l n)).
Proof.
  induction l as [ | u l IH ]; intros n; cbn [write_str32]; [ apply units_bytes | ]. destruct (n =? 0); [ constructor | ]. apply wseq_bytes; [ apply write_bits_bytes | apply IH ].
Qed.
Fixpoint twriter_rect' (P : twriter -> Prop)
  (Hp : forall w, (forall n x, w <> WrArray n x) -> (forall l, w <> WrStruct l) -> P w)
  (Ha : forall n x, P x -> P (WrArray n x)) (Hs : forall l, Forall P l -> P (WrStruct l)) (w : twriter) : P w.
Proof.
  destruct w; try (apply Hp; intros; discriminate).
  - apply Ha. apply (twriter_rect' P Hp Ha Hs).
  - apply Hs. induction l as [ | x l IH ]; constructor; [ apply (twriter_rect' P Hp Ha Hs) | exact IH ].
Defined.
Lemma write_one_bytes c w : forall v, clean v -> bytes_ok (fst (write_one c w v)).
Proof.
  induction w as [ w Ha Hs | n w IH | ws IH ] using twriter_rect'.
  - intros v Hv. destruct w; cbn [write_one]; try (now destruct (Ha _ _ eq_refl)); try (now destruct (Hs _ eq_refl)).
    + destruct p, v; cbn [wbad fst]; try constructor; try apply write_bits_bytes; [ destruct b; reflexivity | constructor ].
    + destruct v; try constructor. apply wseq_bytes; apply write_bits_bytes.
    + destruct v; try constructor. destruct (_ || _); [ constructor | ]. apply wseq_bytes; [ exact Hv | ]. destruct is_byte_str; [ apply wzeros_bytes | constructor ].
    + destruct v; try constructor. exact Hv.
    + destruct v; try constructor. destruct (_ <? _); [ constructor | ]. apply wseq_bytes; apply units_bytes.
    + destruct v; try constructor. destruct (_ <? _); [ constructor | ]. apply wseq_bytes; apply units_bytes.
    + destruct v; try constructor. apply str32_bytes.
    + destruct v; try constructor. destruct (_ <? _); [ constructor | ]. apply wseq_bytes; [ now apply P_Text.utf8_bytes | ].
      destruct (_ <? _); [ apply wzeros_bytes | constructor ].
  - intros v Hv. destruct v; try constructor. cbn [write_one]. change (clean_all l) in Hv. induction l as [ | x l IHl ]; cbn [fold_right]; [ constructor | ].
    destruct Hv as (Hx & Hl). apply wseq_bytes; auto.
  - intros v Hv. destruct v; try constructor. cbn [write_one]. change (clean_all l) in Hv. revert l Hv.
    induction IH as [ | w ws Hw Hws IHws ]; intros [ | x l ] Hv; try constructor. destruct Hv as (Hx & Hl). apply wseq_bytes; auto.
Qed.

(** * Output actions that keep the contents bytes *)
Definition keeps {A} (m : sink -> res A * sink) : Prop := forall s, bytes_ok (sk_data s) -> bytes_ok (sk_data (snd (m s))).
Lemma keeps_ret {A} (r : res A) : keeps (sret r).
Proof. intros s H. exact H. Qed.
Lemma keeps_bind {A B} (m : sink -> res A * sink) (k : A -> sink -> res B * sink) : keeps m -> (forall a s s', m s = (Ok a, s') -> keeps (k a)) -> keeps (sbind m k).
Proof.
  intros Hm Hk s H. specialize (Hm s H). unfold sbind. destruct (m s) as ([ a | e | ], s') eqn:E; cbn [snd] in *; auto. eapply Hk; eauto.
Qed.
Lemma tick_data s : sk_data (snd (sink_tick s)) = sk_data s.
Proof. unfold sink_tick. destruct (sk_fuel s) as [ n | ]; [ destruct (n =? 0) | ]; reflexivity. Qed.
Lemma keeps_flush : keeps sink_flush.
Proof. intros s H. unfold sink_flush. now rewrite tick_data. Qed.
Lemma keeps_seek p : keeps (sink_seek p).
Proof. intros s H. unfold sink_seek. pose proof (tick_data s). destruct (sink_tick s) as ([ [] | | ], s'); cbn [snd sk_data] in *; congruence. Qed.
Lemma keeps_tell : keeps sink_tell.
Proof. intros s H. unfold sink_tell. pose proof (tick_data s). destruct (sink_tick s) as ([ [] | | ], s'); cbn [snd sk_data] in *; congruence. Qed.
Lemma Forall_takeN {A} (P : A -> Prop) n l : Forall P l -> Forall P (takeN n l).
Proof. intros H. rewrite <- (takeN_dropN n l) in H. now apply Forall_app in H. Qed.
Lemma Forall_dropN {A} (P : A -> Prop) n l : Forall P l -> Forall P (dropN n l).
Proof. intros H. rewrite <- (takeN_dropN n l) in H. now apply Forall_app in H. Qed.
Lemma overwrite_bytes d p bs : bytes_ok d -> bytes_ok bs -> bytes_ok (overwrite d p bs).
Proof.
  intros Hd Hb. unfold overwrite, bytes_ok. repeat (apply Forall_app; split); auto using Forall_takeN, Forall_dropN. now apply Forall_repeatN.
Qed.
Lemma keeps_write bs : bytes_ok bs -> keeps (sink_write bs).
Proof.
  intros Hb s H.
  assert (X : forall l, bytes_ok l -> bytes_ok (match l with [] => sk_data s | _ => overwrite (sk_data s) (sk_pos s) l end)) by (intros [ | x l ] Hl; [ auto | now apply overwrite_bytes ]).
  unfold sink_write. destruct (sk_fuel s) as [ n | ]; [ destruct (lenN bs <=? n) | ]; cbn [snd sk_data]; apply X; auto. now apply Forall_takeN.
Qed.
Lemma ascii_bytes l : ascii_text l -> bytes_ok l.
Proof. intros H. eapply Forall_impl; [ | exact H ]. cbn. intros; lia. Qed.
Lemma padded_header_bytes dict txt version props : bytes_ok dict -> determine_required_version_and_pad_header dict = Ok (txt, version, props) ->
  bytes_ok txt /\ fst version < 256 /\ snd version < 256.
Proof.
  intros Hd H. unfold determine_required_version_and_pad_header in H. destruct (get_version_props _) as [ p | ]; [ | discriminate ].
  destruct (_ =? 0); [ | discriminate ]. apply Ok_inj in H. apply pair_inj in H as (H & _). apply pair_inj in H as (<- & <-). split.
  - repeat (apply Forall_app; split); [ exact Hd | now apply Forall_repeatN | repeat constructor ].
  - unfold get_minimal_version. cbn [vp_utf8 vp_u32]. destruct (existsb _ _); [ | destruct (_ <=? _) ]; split; reflexivity.
Qed.
Lemma keeps_header c d o h : wf_dtype d -> keeps (write_header c d o h).
Proof.
  intros Hw. unfold write_header. destruct d as [ t | n d | fs ]; [ | apply keeps_ret | ].
  all: apply keeps_bind; [ apply keeps_ret | ]; intros (dict, info) s s' E; unfold sret in E; apply pair_inj in E as (E & _);
    apply create_dict_bytes in E; [ | exact Hw | exact I ];
    apply keeps_bind; [ apply keeps_ret | ]; intros ((txt, version), props) s2 s2' E2; unfold sret in E2; apply pair_inj in E2 as (E2 & _); cbn [fst] in E2;
    assert (Ht : bytes_ok txt /\ fst version < 256 /\ snd version < 256) by (eapply padded_header_bytes; eauto);
    destruct Ht as (Ht & Hv1 & Hv2);
    repeat first [ apply keeps_ret | apply keeps_write; first [ exact Ht | apply le_bytes_ok | repeat constructor; assumption ] 
                 | apply keeps_bind; [ | intros ] | match goal with |- keeps (if ?b then _ else _) => destruct b end ].
Qed.
Lemma keeps_begin c t d o h sk : wf_dtype d -> keeps (begin_ c t d o h sk).
Proof.
  intros Hw. unfold begin_. apply keeps_bind.
  { destruct sk; [ apply keeps_bind; [ apply keeps_tell | intros; apply keeps_ret ] | apply keeps_ret ]. }
  intros. apply keeps_bind; [ now apply keeps_header | ]. intros. destruct (writer c t d); apply keeps_ret.
Qed.
Lemma keeps_push c v w s : clean v -> bytes_ok (sk_data s) -> bytes_ok (sk_data (snd (push c v w s))).
Proof.
  intros Hv H. unfold push. destruct (u64_add c (w_num_items w) 1) as [ n | | ]; [ | exact H | exact H ].
  pose proof (write_one_bytes c (w_writer w) v Hv) as Hb. destruct (write_one c (w_writer w) v) as (bs, r). cbn [fst] in Hb.
  assert (K : keeps (let@ _u := sink_write bs in sret r)) by (apply keeps_bind; [ now apply keeps_write | intros; apply keeps_ret ]).
  specialize (K s H). destruct ((let@ _u := sink_write bs in sret r) s) as (r', s'). exact K.
Qed.
Lemma keeps_extend c vs : Forall clean vs -> forall w s, bytes_ok (sk_data s) -> bytes_ok (sk_data (snd (extend c vs w s))).
Proof.
  induction 1 as [ | v vs Hv Hvs IH ]; intros w s H; cbn [extend]; [ exact H | ].
  pose proof (keeps_push c v w s Hv H) as K. destruct (push c v w s) as (([ [] | | ], w'), s'); cbn [snd] in *; auto.
Qed.
Lemma suffix_1d_bytes n bs : shape_suffix_1d (dec n) = Ok bs -> bytes_ok bs.
Proof.
  unfold shape_suffix_1d, filler_space_padding. intros H. apply bind_ok in H as (p & Hp & H). apply Ok_inj in H as <-.
  repeat (apply Forall_app; split); [ apply ascii_bytes, dec_ascii | repeat constructor | ].
  destruct (_ <=? _); [ | discriminate ]. apply Ok_inj in Hp as <-. now apply Forall_repeatN.
Qed.
Lemma suffix_2d_bytes o r n bs : shape_suffix_2d o r (dec n) = Ok bs -> bytes_ok bs.
Proof.
  unfold shape_suffix_2d, filler_space_padding. intros H. apply bind_ok in H as (p & Hp & H). apply Ok_inj in H as <-.
  apply Forall_app; split.
  - destruct o; repeat (apply Forall_app; split); try (apply ascii_bytes, dec_ascii); repeat constructor.
  - destruct (_ <=? _); [ | discriminate ]. apply Ok_inj in Hp as <-. now apply Forall_repeatN.
Qed.
Lemma keeps_ms_seek b p : keeps (ms_seek b p).
Proof. unfold ms_seek. destruct b; [ apply keeps_seek | apply keeps_ret ]. Qed.
Lemma keeps_patch w off txt : (forall bs, txt = Ok bs -> bytes_ok bs) -> keeps (patch w off txt).
Proof.
  intros Ht. unfold patch. destruct (w_start_pos w); [ | apply keeps_ret ].
  apply keeps_bind; [ unfold ms_tell; destruct (w_seekable w); [ apply keeps_tell | apply keeps_ret ] | ]. intros.
  apply keeps_bind; [ apply keeps_ms_seek | ]. intros. apply keeps_bind; [ apply keeps_ret | ]. intros bs s2 s2' E. unfold sret in E. apply pair_inj in E as (E & _).
  apply keeps_bind; [ apply keeps_write; auto | ]. intros. apply keeps_ms_seek.
Qed.
Lemma keeps_finish_ w : keeps (finish_ w).
Proof.
  unfold finish_. destruct (w_shape_info w) as [ off | off r o | e ].
  - apply keeps_bind; [ apply keeps_patch; intros bs; apply suffix_1d_bytes | intros; apply keeps_flush ].
  - destruct (r =? 0); [ apply keeps_ret | ]. destruct (negb _); [ apply keeps_ret | ].
    apply keeps_bind; [ apply keeps_patch; intros bs; apply suffix_2d_bytes | intros; apply keeps_flush ].
  - destruct (negb _); [ apply keeps_ret | apply keeps_flush ].
Qed.
Lemma keeps_drop w : keeps (drop_writer w).
Proof. intros s H. pose proof (keeps_finish_ w s H) as K. unfold drop_writer. destruct (finish_ w s) as ([ [] | | ], s'); exact K. Qed.
Lemma keeps_finish w : keeps (finish w).
Proof.
  intros s H. pose proof (keeps_finish_ w s H) as K. unfold finish. destruct (finish_ w s) as (r, s'). cbn [snd] in K. pose proof (keeps_drop w s' K) as K'.
  destruct r as [ [] | | ]; cbn [snd]; auto; destruct (drop_writer w s') as ([ [] | | ], s''); exact K'.
Qed.
Lemma keeps_push_all c vs w : Forall clean vs -> keeps (push_all_and_finish c vs w).
Proof.
  intros Hv s H. unfold push_all_and_finish. pose proof (keeps_extend c vs Hv w s H) as K. destruct (extend c vs w s) as ((r, w'), s'). cbn [snd] in K.
  pose proof (keeps_finish w' s' K) as K1. pose proof (keeps_drop w' s' K) as K2.
  destruct r as [ [] | | ]; [ exact K1 | | ]; destruct (drop_writer w' s') as ([ [] | | ], s''); exact K2.
Qed.
Lemma keeps_write_file c t d o h sk vs : wf_dtype d -> Forall (has_type t) vs -> keeps (write_file c t d o h sk vs).
Proof.
  intros Hw Hv. apply keeps_bind; [ now apply keeps_begin | ]. intros. apply keeps_push_all. eapply Forall_impl; [ | exact Hv ]. apply has_type_clean.
Qed.
Lemma written_bytes c t d o h sk vs s r s' : wf_dtype d -> Forall (has_type t) vs -> bytes_ok (sk_data s) -> write_file c t d o h sk vs s = (r, s') -> bytes_ok (sk_data s').
Proof. intros Hw Hv Hs H. pose proof (keeps_write_file c t d o h sk vs Hw Hv s Hs) as K. now rewrite H in K. Qed.
