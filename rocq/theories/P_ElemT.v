(** The statements of T_Elem.v. *)
From Verif Require Import M_Base M_Text M_TypeStr M_IO M_Header M_Read M_Serialize S_TypeStr S_DType S_Shape S_Header S_Text S_Elem S_Strings
  P_Base P_Text P_TypeStr P_IO P_Shape P_Header P_Number P_Elem P_ReadOne P_WriteOne P_Codec P_Sizes P_Default P_Strings.
Open Scope N_scope.

Lemma num_bytes_size c d n : num_bytes c d = Some n -> n = size d.
Proof. intros H. now apply num_bytes_exact in H. Qed.

Lemma read_consumes c t d r input v rest : wf_dtype d -> reader c t d = DOk r -> bytes_ok input ->
  run (read_one c r) input = (Ok v, rest) ->
  exists item, input = item ++ rest /\ lenN item = size d /\ forall n, num_bytes c d = Some n -> lenN item = n.
Proof.
  intros Hw Hr Hb H. pose proof (read_one_total c t d r Hw Hr input Hb) as T. rewrite H in T. destruct T as (bs & E & Hl & _).
  exists bs. repeat split; auto. intros n Hn. apply num_bytes_size in Hn. congruence.
Qed.
Lemma write_produces c t d w v out : wf_dtype d -> writer c t d = DOk w -> has_type t v ->
  write_one c w v = (out, Ok tt) -> lenN out = size d /\ bytes_ok out /\ forall n, num_bytes c d = Some n -> lenN out = n.
Proof.
  intros Hw Hr Hv H. apply (write_encode c t d) in H; auto. destruct (encode_len t _ _ _ _ (writer_dtype _ _ _ _ Hr) Hv H) as (H1 & H2).
  repeat split; auto. intros n Hn. apply num_bytes_size in Hn. congruence.
Qed.
Lemma no_panic_read c t d r input : wf_dtype d -> strings_fit (c_usize_max c) d -> reader c t d = DOk r -> bytes_ok input -> fst (run (read_one c r) input) <> Panic.
Proof. intros Hw Hf Hr Hb H. pose proof (read_one_total c t d r Hw Hr input Hb) as T. destruct (run (read_one c r) input) as (x, rest). cbn in H. now subst. Qed.
Lemma no_panic_write c t d w v : wf_dtype d -> strings_fit (c_usize_max c) d -> writer c t d = DOk w -> has_type t v -> snd (write_one c w v) <> Panic.
Proof.
  intros Hw Hf Hr Hv H. pose proof (writes_all c t d Hw w Hr v Hv) as [ (T & _) | T ]; [ contradiction | ]. destruct (encode t d v).
  - rewrite T in H. discriminate. - destruct T as (p & e & T). rewrite T in H. discriminate.
Qed.
Lemma machines_agree c c' t d w w' v : wf_dtype d -> strings_fit (c_usize_max c) d -> strings_fit (c_usize_max c') d -> writer c t d = DOk w -> writer c' t d = DOk w' -> has_type t v ->
  forall out, write_one c w v = (out, Ok tt) <-> write_one c' w' v = (out, Ok tt).
Proof. intros. now rewrite !(write_exact _ t d) by auto. Qed.
Lemma readers_agree c c' t d r r' input : wf_dtype d -> strings_fit (c_usize_max c) d -> strings_fit (c_usize_max c') d -> reader c t d = DOk r -> reader c' t d = DOk r' -> bytes_ok input ->
  forall v rest, run (read_one c r) input = (Ok v, rest) <-> run (read_one c' r') input = (Ok v, rest).
Proof.
  intros Hw. assert (H : forall c c' r r', strings_fit (c_usize_max c') d -> reader c t d = DOk r -> reader c' t d = DOk r' -> bytes_ok input ->
    forall v rest, run (read_one c r) input = (Ok v, rest) -> run (read_one c' r') input = (Ok v, rest)).
  { clear -Hw. intros c c' r r' Hf Hr Hr' Hb v rest H. pose proof (read_one_total c t d r Hw Hr input Hb) as T. rewrite H in T.
    destruct T as (bs & -> & Hl & Hd). apply Forall_app in Hb as (Hb & _). apply (read_exact_item c' t d r'); auto. }
  intros Hf Hf' Hr Hr' Hb v rest. split; eapply H; eauto.
Qed.

Lemma read_written c c' t d w r v out rest : wf_dtype d -> strings_fit (c_usize_max c') d -> writer c t d = DOk w -> reader c' t d = DOk r -> has_type t v ->
  write_one c w v = (out, Ok tt) -> run (read_one c' r) (out ++ rest) = (Ok (read_back t d v), rest).
Proof.
  intros Hw Hf Hwr Hr Hv H. destruct (write_produces c t d w v out Hw Hwr Hv H) as (Hl & Hb & _). apply (write_encode c t d) in H; auto.
  apply (read_exact_item c' t d r); auto. eapply decode_encode; eauto using writer_dtype, reader_dtype.
Qed.
Lemma read_written_same c c' t d w r v out rest : wf_dtype d -> strings_fit (c_usize_max c') d -> writer c t d = DOk w -> reader c' t d = DOk r -> has_type t v -> survives t d v ->
  write_one c w v = (out, Ok tt) -> run (read_one c' r) (out ++ rest) = (Ok v, rest).
Proof.
  intros Hw Hf Hwr Hr Hv Hs H. rewrite (read_written c c' t d w r v out rest Hw Hf Hwr Hr Hv H).
  now rewrite (read_back_id t d v Hs _ (reader_dtype _ _ _ _ Hr) Hv).
Qed.

Lemma numeric_fits m u dir t : forall d, numeric t -> accepts u dir t d -> strings_fit m d.
Proof.
  induction t as [ t Ha Hs | n t IH | fs IH ] using rty_rect'; intros d Hn H.
  - destruct t; try (now destruct Hn); try (now destruct (Ha _ _ eq_refl)); try (now destruct (Hs _ eq_refl)); destruct d as [ ts | | ]; try (now destruct H);
      cbn [accepts scalar_ok strings_fit] in *; destruct (ts_char ts); auto; try destruct signed; intuition discriminate.
  - destruct d; try (now destruct H). cbn [numeric strings_fit] in *. apply IH; auto. apply H.
  - apply accepts_struct_inv in H as (ds & -> & H). rewrite strings_fit_record.
    revert Hn ds H. induction IH as [ | (name, t) fs Hf Hfs IHf ]; intros Hn [ | (name', d) ds ] H; try (now destruct H).
    destruct H as (_ & H & Hds). destruct Hn as (Hn & Hns). cbn [strings_fit_fields]. split; [ now apply Hf | now apply IHf ].
Qed.
Lemma numeric_items c c' t d r w item rest : wf_dtype d -> numeric t -> reader c t d = DOk r -> writer c' t d = DOk w ->
  lenN item = size d -> bytes_ok item ->
  exists v, has_type t v /\ run (read_one c r) (item ++ rest) = (Ok v, rest) /\ write_one c' w v = (item, Ok tt).
Proof.
  intros Hw Hn Hr Hwr Hl Hb. destruct (numeric_total t _ _ item Hn (reader_dtype _ _ _ _ Hr) Hl Hb) as (v & Hd & He).
  exists v. pose proof (decode_typed t _ _ _ _ (reader_dtype _ _ _ _ Hr) Hl Hb Hd) as Hv.
  split; auto.
  split; [ apply (read_exact_item c t d) | apply (write_exact c' t d) ]; eauto using numeric_fits, reader_dtype.
Qed.
Lemma numeric_injective c t d r a b v resta restb : wf_dtype d -> numeric t -> reader c t d = DOk r ->
  lenN a = size d -> lenN b = size d -> bytes_ok a -> bytes_ok b ->
  run (read_one c r) (a ++ resta) = (Ok v, resta) -> run (read_one c r) (b ++ restb) = (Ok v, restb) -> a = b.
Proof.
  intros Hw Hn Hr Hla Hlb Hba Hbb H1 H2. apply (read_decode c t d) in H1, H2; auto.
  destruct (numeric_total t _ _ a Hn (reader_dtype _ _ _ _ Hr) Hla Hba) as (v1 & Hd1 & He1).
  destruct (numeric_total t _ _ b Hn (reader_dtype _ _ _ _ Hr) Hlb Hbb) as (v2 & Hd2 & He2). congruence.
Qed.
Lemma bool_items c d r b rest : wf_dtype d -> reader c RBool d = DOk r -> b < 256 ->
  (forall v, run (read_one c r) (b :: rest) = (Ok v, rest) <-> (b = 0 /\ v = XBool false) \/ (b = 1 /\ v = XBool true))
  /\ (1 < b -> exists e rest', run (read_one c r) (b :: rest) = (Err e, rest')).
Proof.
  intros Hw Hr Hb. assert (Hsc : is_scalar_type RBool) by (split; intros; discriminate).
  destruct (accepts_scalar _ _ _ _ Hsc (reader_dtype _ _ _ _ Hr)) as (ts & -> & Hs & Hc).
  assert (L : lenN [b] = size (DPlain ts)) by (cbn [size]; unfold scalar_size; rewrite Hc, Hs; reflexivity).
  assert (B : bytes_ok [b]) by (repeat constructor; exact Hb).
  assert (F : strings_fit (c_usize_max c) (DPlain ts)) by (cbn [strings_fit]; now rewrite Hc). split.
  - intros v. rewrite (read_exact_item c RBool (DPlain ts) r [b] rest v Hw F Hr L B). cbn [decode].
    destruct b as [ | [ | | ] ]; split; try discriminate; try (intros [= <-]; auto); intros [ (H & ->) | (H & ->) ]; congruence.
  - intros H1. pose proof (reads_all c RBool (DPlain ts) Hw r Hr [b] rest L B) as [ (H & _) | H ]; [ contradiction | ]. cbn [decode] in H. destruct b as [ | [ | | ] ]; auto; lia.
Qed.
Lemma read_typed c t d r input v rest : wf_dtype d -> reader c t d = DOk r -> bytes_ok input -> run (read_one c r) input = (Ok v, rest) -> has_type t v.
Proof.
  intros Hw Hr Hb H. pose proof (read_one_total c t d r Hw Hr input Hb) as T. rewrite H in T. destruct T as (bs & -> & Hl & Hd).
  apply Forall_app in Hb as (Hb & _). eapply decode_typed; eauto using reader_dtype.
Qed.

Lemma struct_reader_names c fs d : (exists r, reader c (RStruct fs) d = DOk r) <->
  exists ds, d = DRecord ds /\ map fst ds = map fst fs /\
  Forall2 (fun f g => exists r, reader c (snd f) (snd g) = DOk r) fs ds.
Proof.
  rewrite reader_accepts. split.
  - intros H. apply accepts_struct_inv in H as (ds & -> & H). exists ds. split; auto. split; [ eapply accepts_fields_names; eauto | ].
    revert ds H. induction fs as [ | (n, t) fs IH ]; intros [ | (n', d) ds ] H; try (now destruct H); constructor.
    + apply reader_accepts. apply H. + apply IH, H.
  - intros (ds & -> & Hn & H). rewrite accepts_struct. revert Hn. induction H as [ | (n, t) (n', d) fs ds Hf Hfs IH ]; intros Hn; [ exact I | ].
    injection Hn as -> Hn. cbn [accepts_fields]. split; auto. split; [ now apply reader_accepts | ]. now apply IH.
Qed.
Lemma struct_writer_names c fs d : (exists r, writer c (RStruct fs) d = DOk r) <->
  exists ds, d = DRecord ds /\ map fst ds = map fst fs /\
  Forall2 (fun f g => exists r, writer c (snd f) (snd g) = DOk r) fs ds.
Proof.
  rewrite writer_accepts. split.
  - intros H. apply accepts_struct_inv in H as (ds & -> & H). exists ds. split; auto. split; [ eapply accepts_fields_names; eauto | ].
    revert ds H. induction fs as [ | (n, t) fs IH ]; intros [ | (n', d) ds ] H; try (now destruct H); constructor.
    + apply writer_accepts. apply H. + apply IH, H.
  - intros (ds & -> & Hn & H). rewrite accepts_struct. revert Hn. induction H as [ | (n, t) (n', d) fs ds Hf Hfs IH ]; intros Hn; [ exact I | ].
    injection Hn as -> Hn. cbn [accepts_fields]. split; auto. split; [ now apply writer_accepts | ]. now apply IH.
Qed.

(** A struct is its fields one after the other. *)
Lemma writers_Forall2 c fs : forall ds ws, map fst ds = map fst fs -> writers c fs (map snd ds) = DOk ws ->
  lenN ws = lenN fs /\ forall k f g w, nth_error fs k = Some f -> nth_error ds k = Some g -> nth_error ws k = Some w -> writer c (snd f) (snd g) = DOk w.
Proof.
  induction fs as [ | (n, t) fs IH ]; intros [ | (n', d) ds ] ws Hn H; try discriminate Hn; cbn [map snd] in *.
  - injection H as <-. split; auto. intros [ ] ? ? ?; discriminate.
  - cbn [writers] in H. fold (writers c) in H. apply dbind_ok in H as (w & Hw & H). apply dbind_ok in H as (ws' & Hws & [= <-]).
    injection Hn as _ Hn. destruct (IH ds ws' Hn Hws) as (H1 & H2). rewrite !lenN_cons, H1. split; auto.
    intros [ | k ] f g w' Hf Hg Hw'; cbn [nth_error] in *; [ injection Hf as <-; injection Hg as <-; now injection Hw' as <- | eauto ].
Qed.
Lemma struct_concat c fs ds w vs out : wf_dtype (DRecord ds) -> strings_fit (c_usize_max c) (DRecord ds) -> writer c (RStruct fs) (DRecord ds) = DOk w -> has_type (RStruct fs) (XRec vs) ->
  write_one c w (XRec vs) = (out, Ok tt) <->
  exists parts, out = List.concat parts /\ lenN parts = lenN fs /\
    forall k name t d v part, nth_error fs k = Some (name, t) -> nth_error ds k = Some (name, d) -> nth_error vs k = Some v -> nth_error parts k = Some part ->
    exists w', writer c t d = DOk w' /\ write_one c w' v = (part, Ok tt).
Proof.
  intros Hw Hsf Hwr Hv. rewrite (write_exact c (RStruct fs) (DRecord ds)) by auto. rewrite encode_struct. rewrite has_type_struct in Hv.
  rewrite wf_record in Hw. rewrite strings_fit_record in Hsf. pose proof (writer_dtype _ _ _ _ Hwr) as Ha. rewrite accepts_struct in Ha. clear Hwr w.
  revert ds vs out Hw Hsf Ha Hv. induction fs as [ | (n, t) fs IH ]; intros [ | (n', d) ds ] [ | v vs ] out Hw Hsf Ha Hv; try (now destruct Ha); try (now destruct Hv).
  - split.
    + intros [= <-]. exists []. repeat split. intros [ ] ? ? ? ? ?; discriminate.
    + intros (parts & -> & Hl & _). apply lenN_0 in Hl as ->. reflexivity.
  - destruct Ha as (<- & Ha & Has). destruct Hv as (Hv & Hvs). destruct Hsf as (Hsf & Hsfs). apply Forall_cons_iff in Hw as ((_ & Hw) & Hws). cbn [snd] in Hw.
    cbn [encode_fields]. fold encode_fields. destruct (proj2 (writer_accepts c t d) Ha) as (w & Hwr). specialize (IH ds vs).
    split.
    + destruct (encode t d v) as [ a | ] eqn:Ea; [ | discriminate ]. destruct (encode_fields fs ds vs) as [ b | ] eqn:Eb; [ | discriminate ].
      intros [= <-]. destruct (proj1 (IH b Hws Hsfs Has Hvs) eq_refl) as (parts & -> & Hl & Hp). exists (a :: parts). split; [ reflexivity | ].
      rewrite !lenN_cons, Hl. split; auto. intros [ | k ] name t' d' v' part Hf Hd Hx Hpart; cbn [nth_error] in *.
      * injection Hf as <- <-. injection Hd as <-. injection Hx as <-. injection Hpart as <-. exists w. split; auto. now apply (write_exact c t d).
      * eapply Hp; eauto.
    + intros (parts & -> & Hl & Hp). destruct parts as [ | a parts ]; [ rewrite lenN_cons, lenN_nil in Hl; lia | ]. rewrite !lenN_cons in Hl.
      destruct (Hp 0%nat n t d v a eq_refl eq_refl eq_refl eq_refl) as (w' & Hw' & Ho). apply (write_encode c t d) in Ho; auto. rewrite Ho.
      rewrite (proj2 (IH (List.concat parts) Hws Hsfs Has Hvs)); [ reflexivity | ]. exists parts. split; auto. split; [ lia | ].
      intros k ? ? ? ? ?. exact (Hp (S k) _ _ _ _ _).
Qed.

Lemma fields_mismatch c fs ds : map fst ds <> map fst fs ->
  reader c (RStruct fs) (DRecord ds) = DErr (WrongFields (map fst ds) (map fst fs))
  /\ writer c (RStruct fs) (DRecord ds) = DErr (WrongFields (map fst ds) (map fst fs)).
Proof.
  intros H. rewrite reader_struct, writer_struct. cbn [extract_field_dtypes].
  destruct (eqb_texts (map fst ds) (map fst fs)) eqn:E; [ apply eqb_texts_eq in E; contradiction | ]. split; reflexivity.
Qed.

Lemma from_parts_too_big c d shape o : ~ has_object d -> ~ sizes_fit (c_usize_max c) d ->
  forall h, from_parts c d shape o <> Ok h.
Proof.
  intros Ho Hf h H. unfold from_parts in H. apply bind_ok in H as (n & _ & H). apply bind_ok in H as (i & Hi & _).
  destruct (uses_pickled_array d) eqn:E; [ now apply pickled_exact in E | ]. destruct (num_bytes c d) eqn:Eb; [ | discriminate ].
  apply num_bytes_exact in Eb. tauto.
Qed.
Lemma from_parts_item_size c d shape o h : from_parts c d shape o = Ok h -> ~ has_object d -> h_item_size h = Some (size d) /\ h_pickled h = false.
Proof.
  intros H Ho. unfold from_parts in H. apply bind_ok in H as (n & _ & H). apply bind_ok in H as (i & Hi & H). apply bind_ok in H as (s & _ & [= <-]).
  destruct (uses_pickled_array d) eqn:E; [ now apply pickled_exact in E | ]. destruct (num_bytes c d) eqn:Eb; [ | discriminate ].
  apply num_bytes_exact in Eb as (_ & _ & ->). injection Hi as <-. cbn. auto.
Qed.
Lemma validate_same t t' : validate t = TsOk t' -> t' = t.
Proof. unfold validate. repeat match goal with |- context [if ?b then _ else _] => destruct b; try discriminate end. now intros [= <-]. Qed.
Lemma default_fits c t : forall d, has_default (c_usize_max c) t -> default_dtype c t = Some (Ok d) -> strings_fit (c_usize_max c) d.
Proof.
  assert (A : forall code n d, auto_scalar c code n = Some (Ok d) -> strings_fit (c_usize_max c) d \/ (code = TByteStr \/ code = TRawData) /\ exists ts, d = DPlain ts /\ ts_char ts = code /\ ts_size ts = n).
  { intros code n d H. unfold auto_scalar, with_auto_endianness in H. cbv zeta in H.
    match type of H with context [validate ?t] => destruct (validate t) as [ ts | | ] eqn:E; try discriminate; apply validate_same in E; subst ts end.
    injection H as <-. cbn [strings_fit ts_char ts_size]. destruct code; auto; right; split; auto; eexists; repeat split; reflexivity. }
  induction t as [ t Ha Hs | n t IH | fs IH ] using rty_rect'; intros d Hn H.
  - destruct t; try (now destruct Hn); try (now destruct (Ha _ _ eq_refl)); try (now destruct (Hs _ eq_refl)); cbn [default_dtype has_default] in *.
    1: destruct signed.
    all: apply A in H as [ H | ([ H | H ] & ts & -> & Hc & Hz) ]; try exact H; try discriminate H.
    cbn [strings_fit]. rewrite Hc, Hz. exact Hn.
  - cbn [default_dtype] in H. destruct (default_dtype c t) as [ r | ]; [ | discriminate ]. destruct r as [ d' | | ]; try discriminate. injection H as <-.
    cbn [strings_fit]. apply IH; auto. apply Hn.
  - rewrite default_struct in H. destruct (defaults c fs) as [ [ ds | | ] | ] eqn:E; try discriminate. injection H as <-. rewrite strings_fit_record.
    revert Hn ds E. induction IH as [ | (name, t) fs Hf Hfs IHf ]; intros Hn ds E; cbn [defaults] in E; fold (defaults c) in E.
    + injection E as <-. exact I.
    + destruct Hn as (_ & Hn & Hns). destruct (default_dtype c t) as [ [ d | | ] | ] eqn:Et; try discriminate; destruct (defaults c fs) as [ [ ds' | | ] | ] eqn:Es; try discriminate.
      injection E as <-. cbn [strings_fit_fields]. split; [ now apply Hf | now apply IHf ].
Qed.
Lemma default_accepted c t : wf_cfg c -> has_default (c_usize_max c) t ->
  exists d, default_dtype c t = Some (Ok d) /\ wf_dtype d /\ all_orders (of_machine c) d
  /\ (exists r, reader c t d = DOk r)
  /\ exists w, writer c t d = DOk w /\ forall v, has_type t v -> units_ok v -> exists out, write_one c w v = (out, Ok tt).
Proof.
  intros Hc Hd. destruct (default_ok c t Hc Hd) as (d & E & Hw & Ho & Ha & He). exists d. do 3 (split; [ assumption | ]).
  split; [ now apply reader_accepts | ]. destruct (proj2 (writer_accepts c t d) (Ha Writing)) as (w & Hwr). exists w. split; auto.
  intros v Hv Hu. destruct (He v Hv Hu) as (bs & E'). exists bs. apply (write_exact c t d); eauto using default_fits.
Qed.
