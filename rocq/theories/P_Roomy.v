(** Types with a capacity behave as their unlimited counterparts where they are large enough: proofs. *)
From Verif Require Import M_Base M_Text M_TypeStr M_IO M_Header M_Read M_Serialize M_DTypeErr M_NpyReader.
From Verif Require Import S_Text S_TypeStr S_DType S_Shape S_Header S_Elem S_Strings S_Reader S_Fault S_Broken S_History S_Roomy.
From Verif Require Import P_Base P_Text P_TypeStr P_IO P_Header P_Elem P_ElemT P_Sizes P_Codec P_Strings P_ReadOne P_Reader P_Fault P_Broken P_History.
Open Scope N_scope.

(** * Reading *)
Definition alike (t t' : rty) (d : dtype) : Prop :=
  (forall bs, bytes_ok bs -> lenN bs = size d -> decode t d bs = decode t' d bs)
  /\ (forall bs msg, bytes_ok bs -> unreadable t d bs msg <-> unreadable t' d bs msg).

Lemma strip_len l : lenN (strip l) <= lenN l.
Proof.
  unfold strip, lenN. rewrite rev_length. enough (forall k, (List.length (drop_zeros k) <= List.length k)%nat) by (specialize (H (rev l)); rewrite rev_length in H; lia).
  induction k as [ | [ | p ] k IH ]; cbn; lia.
Qed.
Lemma strip_bytes l : bytes_ok l -> bytes_ok (strip l).
Proof.
  intros H. unfold strip. apply Forall_rev. apply Forall_rev in H. revert H. generalize (rev l) as k. induction k as [ | [ | p ] k IH ]; cbn [drop_zeros]; auto. intros H. inversion H; auto.
Qed.
Lemma fit_all s : forall cap, lenN (utf8_string s) <= cap -> fit_chars cap s = s.
Proof.
  induction s as [ | ch s IH ]; intros cap H; [ reflexivity | ]. cbn [fit_chars]. unfold utf8_string in H. cbn [flat_map] in H. rewrite lenN_app in H. fold (utf8_string s) in H.
  replace (lenN (utf8_octets ch) <=? cap) with true by lia. now rewrite IH by lia.
Qed.

Lemma alike_scalar_faults t t' ts :
  (byte_vector t <-> byte_vector t') -> (unit_vector t <-> unit_vector t') -> (char_vector t \/ t = RString /\ ts_char ts = TUnicodeStr <-> char_vector t' \/ t' = RString /\ ts_char ts = TUnicodeStr) ->
  (string_type t <-> string_type t') -> (forall n x, t <> RArray n x) -> (forall fs, t <> RStruct fs) -> t <> RBool -> forall bs msg,
  unreadable t (DPlain ts) bs msg -> unreadable t' (DPlain ts) bs msg.
Proof.
  intros Hb Hu Hc Hs Ha Hf Hn bs msg H. inversion H; subst; try congruence.
  - eapply unit_value; eauto. tauto.
  - eapply char_value; eauto. tauto.
  - eapply text_value; eauto. tauto.
Qed.
Ltac kinds := unfold byte_vector, unit_vector, char_vector, string_type in *; split; intros HH; repeat match goal with A : _ \/ _ |- _ => destruct A | A : exists _, _ |- _ => destruct A | A : _ /\ _ |- _ => destruct A end; subst; try discriminate; try congruence; eauto.

Lemma alike_array n t t' d : alike t t' d -> alike (RArray n t) (RArray n t') (DArray n d).
Proof.
  intros (Hd & Hu). split.
  - intros bs Hb Hl. cbn [size] in Hl. cbn [decode]. do 2 f_equal. assert (Hl' : lenN bs = N.of_nat (N.to_nat n) * size d) by lia. clear Hl. revert bs Hb Hl'.
    induction (N.to_nat n) as [ | k IH ]; intros bs Hb Hl; [ reflexivity | ]. cbn [pieces map]. f_equal.
    + apply Hd; [ now apply Forall_takeN | rewrite lenN_takeN; lia ].
    + apply IH; [ now apply Forall_dropN | rewrite lenN_dropN; lia ].
  - assert (G : forall t t', (forall bs, bytes_ok bs -> lenN bs = size d -> decode t d bs = decode t' d bs) -> (forall bs msg, bytes_ok bs -> unreadable t d bs msg -> unreadable t' d bs msg) ->
      forall bs msg, bytes_ok bs -> unreadable (RArray n t) (DArray n d) bs msg -> unreadable (RArray n t') (DArray n d) bs msg).
    { clear. intros t t' Hd Hu bs msg Hb H. inversion H as [ | ? ? ? ? ? ? Hx | ? ? ? ? ? ? Hx | ? ? ? Hx | ? ? ? ? blocks b msg' Hl Hbs Hx | ]; subst.
      apply Forall_app in Hb as (Hb1 & Hb2). apply element_value; auto. clear - Hd Hbs Hb1. induction Hbs as [ | b blocks (Hl & v & Hv) Hbs IH ]; constructor.
      - split; [ auto | ]. exists v. cbn [List.concat] in Hb1. apply Forall_app in Hb1 as (Hb1 & _). now rewrite <- Hd.
      - apply IH. cbn [List.concat] in Hb1. now apply Forall_app in Hb1 as (_ & Hb1). }
    intros bs msg Hb. split; apply G; auto; intros; try (symmetry; auto); now apply Hu.
Qed.
Lemma alike_field name t t' fs fs' name' d ds : alike t t' d -> alike (RStruct fs) (RStruct fs') (DRecord ds) ->
  alike (RStruct ((name, t) :: fs)) (RStruct ((name, t') :: fs')) (DRecord ((name', d) :: ds)).
Proof.
  intros (Hd & Hu) (Hds & Hus). split.
  - intros bs Hb Hl. rewrite size_record in Hl. cbn [size_fields] in Hl. fold size_fields in Hl. rewrite !decode_struct. cbn [decode_fields]. fold decode_fields.
    rewrite (Hd (takeN (size d) bs)) by (try apply Forall_takeN; auto; rewrite lenN_takeN; lia).
    specialize (Hds (dropN (size d) bs) (Forall_dropN _ _ _ Hb)). rewrite size_record, lenN_dropN, !decode_struct in Hds. specialize (Hds ltac:(lia)).
    destruct (decode t' d _); [ | reflexivity ]. destruct (decode_fields fs ds _), (decode_fields fs' ds _); cbn [omap] in *; congruence.
  - intros bs msg Hb. rewrite <- !unreadable_cons. split; (intros [ H | (b1 & b2 & v & -> & Hl & Hv & H) ]; [ left; now apply Hu | ]);
      right; apply Forall_app in Hb as (Hb1 & Hb2); exists b1, b2, v; (split; [ reflexivity | split; [ auto | ] ]); (split; [ | now apply Hus ]).
    + now rewrite <- Hd. + now rewrite Hd.
Qed.
Lemma roomy_alike t t' d : roomy t t' d -> alike t t' d.
Proof.
  induction 1 as [ t d | n ts Hc Hn | n ts Hc Hn | n ts Hn | n ts Hn | n ts Hc Hn | n t t' d H IH | name t t' fs fs' name' d ds H IH H' IH' ].
  - split; [ auto | tauto ].
  - split.
    + intros bs _ Hl. cbn [size] in Hl. unfold scalar_size in Hl. rewrite Hc in Hl. cbn [decode]. rewrite Hc, takeN_all by lia. reflexivity.
    + intros bs msg _. split; apply alike_scalar_faults; try discriminate; kinds.
  - split.
    + intros bs _ Hl. cbn [size] in Hl. unfold scalar_size in Hl. rewrite Hc in Hl. cbn [decode]. rewrite Hc. replace (n - lenN bs) with 0 by lia. cbn [repeatN]. now rewrite app_nil_r.
    + intros bs msg _. split; apply alike_scalar_faults; try discriminate; kinds.
  - split.
    + intros bs _ Hl. cbn [decode]. rewrite takeN_all; [ reflexivity | ]. unfold utf32_units, lenN. rewrite map_length. pose proof (pieces_length (N.to_nat (ts_size ts)) 4 bs). lia.
    + intros bs msg _. split; apply alike_scalar_faults; try discriminate; kinds.
  - split.
    + intros bs _ Hl. cbn [decode]. rewrite takeN_all; [ reflexivity | ]. unfold utf32_units, lenN. rewrite map_length. pose proof (pieces_length (N.to_nat (ts_size ts)) 4 bs). lia.
    + intros bs msg _. split; apply alike_scalar_faults; try discriminate; kinds.
  - split.
    + intros bs Hb Hl. cbn [size] in Hl. unfold scalar_size in Hl. rewrite Hc in Hl. cbn [decode]. rewrite Hc. destruct (from_utf8 (strip bs)) as [ s | ] eqn:E; [ | reflexivity ]. cbn [omap].
      do 2 f_equal. apply fit_all. apply from_utf8_sound in E as (Hs & E); [ | now apply strip_bytes ]. change utf8_string with utf8. rewrite E. pose proof (strip_len bs). lia.
    + intros bs msg _. split; apply alike_scalar_faults; try discriminate; kinds.
  - now apply alike_array.
  - now apply alike_field.
Qed.

Lemma attempt_same t t' d input s k : (forall bs, bytes_ok bs -> lenN bs = size d -> decode t d bs = decode t' d bs) -> (forall bs msg, bytes_ok bs -> unreadable t d bs msg <-> unreadable t' d bs msg) ->
  bytes_ok input -> attempt t d input s k -> attempt t' d input s k.
Proof.
  intros Hd Hu Hb [ b rest v -> Hl Hv | b rest msg -> H | Hl Hn ]; try (apply Forall_app in Hb as (Hb1 & Hb2)).
  - apply (attempt_item _ _ _ b rest v); auto. now rewrite <- Hd.
  - apply (attempt_fault _ _ _ b rest msg); auto. now apply Hu.
  - apply attempt_cut; [ auto | ]. intros b rest msg -> H. apply Forall_app in Hb as (Hb1 & Hb2). apply (Hn b rest msg); [ reflexivity | now apply Hu ].
Qed.
Lemma roomy_reads c t t' d r r' input : roomy t t' d -> wf_dtype d -> strings_fit (c_usize_max c) d -> reader c t d = DOk r -> reader c t' d = DOk r' -> bytes_ok input ->
  run (read_one c r) input = run (read_one c r') input.
Proof.
  intros H Hw Hs Hr Hr' Hb. destruct (roomy_alike _ _ _ H) as (Hd & Hu). destruct (run (read_one c r) input) as (x, rest) eqn:E. destruct (run (read_one c r') input) as (x', rest') eqn:E'.
  pose proof (run_attempt c t d r input x rest Hw Hs Hr Hb E) as A. pose proof (run_attempt c t' d r' input x' rest' Hw Hs Hr' Hb E') as A'.
  apply (attempt_same t t' d) in A; auto. destruct (attempt_unique c t' d r' input _ _ _ _ Hw Hs Hr' Hb A A') as (Hx & Hk).
  assert (x = x') by (destruct x, x'; cbn [say_item] in Hx; congruence).
  destruct (run_suffix _ _ _ _ E) as (u & Hu1). destruct (run_suffix _ _ _ _ E') as (u' & Hu2).
  assert (lenN u = lenN u') by (rewrite Hu1 in Hk at 1; rewrite Hu2 in Hk at 1; rewrite !lenN_app in Hk; lia).
  rewrite Hu1 in Hu2. apply app_inj_lenN in Hu2 as (_ & Hu2); [ | auto ]. congruence.
Qed.
Lemma roomy_accepts m t t' d : roomy t t' d -> accepts m Reading t d <-> accepts m Reading t' d.
Proof.
  induction 1 as [ t d | n ts Hc Hn | n ts Hc Hn | n ts Hn | n ts Hn | n ts Hc Hn | n t t' d H IH | name t t' fs fs' name' d ds H IH H' IH' ]; try tauto.
  - cbn [accepts scalar_ok is_string_type]. rewrite Hc. intuition discriminate.
  - cbn [accepts scalar_ok is_string_type]. rewrite Hc, Hn. intuition (try discriminate; try lia).
  - cbn [accepts scalar_ok is_string_type]. rewrite Hc. intuition discriminate.
  - cbn [accepts]. tauto.
  - cbn [accepts] in *. tauto.
Qed.

(** * Writing *)
Lemma unstorable_cons name t fs name' d ds v out msg :
  (exists x after, v = XRec (x :: after) /\ (unstorable t d x out msg
     \/ exists b1 b2, out = b1 ++ b2 /\ encode t d x = Some b1 /\ unstorable (RStruct fs) (DRecord ds) (XRec after) b2 msg)) <->
  unstorable (RStruct ((name, t) :: fs)) (DRecord ((name', d) :: ds)) v out msg.
Proof.
  split.
  - intros (x & after & -> & [ H | (b1 & b2 & -> & He & H) ]).
    + exact (member [] name t fs [] name' d ds [] x after [] out msg eq_refl H).
    + inversion H as [ ? ? ? ? ? Hx | ? ? ? ? ? Hx | ? ? ? ? ? ? Hx | ? ? ? ? ? Hx | ? ? ? ? ? Hx | | fs1 n1 t1 fs2 ds1 n2 d2 ds2 before y after' bs out' msg' Hb Hu ]; subst.
      rewrite encode_struct in Hb. rewrite app_assoc.
      apply (member ((name, t) :: fs1) n1 t1 fs2 ((name', d) :: ds1) n2 d2 ds2 (x :: before) y after' (b1 ++ bs) out' msg); auto.
      rewrite encode_struct. cbn [encode_fields]. fold encode_fields. now rewrite He, Hb.
  - intros H. inversion H as [ ? ? ? ? ? Hx | ? ? ? ? ? Hx | ? ? ? ? ? ? Hx | ? ? ? ? ? Hx | ? ? ? ? ? Hx | | fs1 n1 t1 fs2 ds1 n2 d2 ds2 before y after' bs out' msg' Hb Hu Hfs Hds ]; subst.
    rewrite encode_struct in Hb. destruct fs1 as [ | (n3, t3) fs1 ], ds1 as [ | (n4, d4) ds1 ], before as [ | z before ]; cbn [encode_fields] in Hb; try discriminate Hb.
    + injection Hfs as -> -> ->. injection Hds as -> -> ->. apply Some_inj in Hb as <-. exists y, after'. auto.
    + fold encode_fields in Hb. cbn [app] in Hfs, Hds. injection Hfs as -> -> <-. injection Hds as -> -> <-.
      destruct (encode t d z) as [ b1 | ] eqn:E1; [ | discriminate Hb ]. destruct (encode_fields fs1 ds1 before) as [ b2 | ] eqn:E2; [ | discriminate Hb ]. apply Some_inj in Hb as <-.
      exists z, (before ++ y :: after'). split; [ reflexivity | ]. right. exists b1, (b2 ++ out'). rewrite app_assoc. split; [ reflexivity | ]. split; [ auto | ].
      apply (member fs1 n1 t1 fs2 ds1 n2 d2 ds2 before y after' b2 out' msg); auto.
Qed.
Definition stored_alike (t t' : rty) (d : dtype) : Prop :=
  (forall v, encode t d v = encode t' d v) /\ (forall v out msg, unstorable t d v out msg <-> unstorable t' d v out msg).
Lemma stored_scalar_faults t t' ts : (byte_vector t <-> byte_vector t') -> (unit_vector t <-> unit_vector t') -> (char_vector t <-> char_vector t') ->
  (string_type t <-> string_type t') -> (forall n x, t <> RArray n x) -> (forall fs, t <> RStruct fs) -> forall v out msg,
  unstorable t (DPlain ts) v out msg -> unstorable t' (DPlain ts) v out msg.
Proof.
  intros Hb Hu Hc Hs Ha Hf v out msg H. inversion H; subst; try congruence.
  - apply bytes_count; auto. tauto.
  - apply units_count; auto. tauto.
  - eapply units_value; eauto. tauto.
  - apply string_units; auto. tauto.
  - apply string_bytes; auto. tauto.
Qed.
Lemma plain_only t d v out msg : unstorable t d v out msg -> (forall n x, t <> RArray n x) -> (forall fs, t <> RStruct fs) -> exists ts, d = DPlain ts.
Proof. intros H Ha Hf. inversion H; subst; eauto; congruence. Qed.
Lemma stored_array n m t t' d : stored_alike t t' d -> stored_alike (RArray n t) (RArray n t') (DArray m d).
Proof.
  intros (He & Hu). split.
  - intros [ | | | | | | | l | ]; try reflexivity. cbn [encode]. induction l as [ | x l IH ]; [ reflexivity | ]. now rewrite He, IH.
  - assert (G : forall t t', (forall v, encode (RArray n t) (DArray m d) v = encode (RArray n t') (DArray m d) v) -> (forall v out msg, unstorable t d v out msg -> unstorable t' d v out msg) ->
      forall v out msg, unstorable (RArray n t) (DArray m d) v out msg -> unstorable (RArray n t') (DArray m d) v out msg).
    { clear. intros t t' He Hu v out msg H. inversion H as [ ? ? ? ? ? Hx | ? ? ? ? ? Hx | ? ? ? ? ? ? Hx | ? ? ? ? ? Hx | ? ? ? ? ? Hx | ? ? ? ? before y after bs out' msg' Hb Hy | ]; subst.
      apply (element n t' m d before y after bs out' msg); auto. now rewrite <- He. }
    assert (E : forall v, encode (RArray n t) (DArray m d) v = encode (RArray n t') (DArray m d) v).
    { intros [ | | | | | | | l | ]; try reflexivity. cbn [encode]. induction l as [ | x l IH ]; [ reflexivity | ]. now rewrite He, IH. }
    intros v out msg. split; apply G; auto; intros; now apply Hu.
Qed.
Lemma stored_field name t t' fs fs' name' d ds : stored_alike t t' d -> stored_alike (RStruct fs) (RStruct fs') (DRecord ds) ->
  stored_alike (RStruct ((name, t) :: fs)) (RStruct ((name, t') :: fs')) (DRecord ((name', d) :: ds)).
Proof.
  intros (He & Hu) (Hes & Hus). split.
  - intros [ | | | | | | | | l ]; try reflexivity. specialize (Hes (XRec (tl l))). rewrite !encode_struct in *. destruct l as [ | x l ]; [ reflexivity | ]. cbn [encode_fields tl] in *. fold encode_fields. now rewrite He, Hes.
  - intros v out msg. rewrite <- !unstorable_cons. split; intros (x & after & -> & [ H | (b1 & b2 & -> & Hb & H) ]); exists x, after; (split; [ reflexivity | ]).
    + left. now apply Hu. + right. exists b1, b2. rewrite <- He. rewrite <- Hus. auto.
    + left. now apply Hu. + right. exists b1, b2. rewrite He. rewrite Hus. auto.
Qed.
Lemma unlimited_alike t t' : unlimited t t' -> forall d, stored_alike t t' d.
Proof.
  assert (S : forall t t', (forall d v, encode t d v = encode t' d v) -> (byte_vector t <-> byte_vector t') -> (unit_vector t <-> unit_vector t') -> (char_vector t <-> char_vector t') ->
    (string_type t <-> string_type t') -> (forall n x, t <> RArray n x) -> (forall fs, t <> RStruct fs) -> (forall n x, t' <> RArray n x) -> (forall fs, t' <> RStruct fs) -> forall d, stored_alike t t' d).
  { intros t0 t0' He Hb Hu Hc Hs H1 H2 H3 H4 d. split; [ auto | ]. intros v out msg. split; intros H; destruct (plain_only _ _ _ _ _ H) as (ts & ->); auto; revert H; apply stored_scalar_faults; tauto. }
  induction 1 as [ t | n | n | n | n | n t t' H IH | name t t' fs fs' H IH H' IH' ]; intros d.
  - split; [ auto | tauto ].
  - apply S; try discriminate; [ reflexivity | kinds | kinds | kinds | kinds ].
  - apply S; try discriminate; [ reflexivity | kinds | kinds | kinds | kinds ].
  - apply S; try discriminate; [ reflexivity | kinds | kinds | kinds | kinds ].
  - apply S; try discriminate; [ reflexivity | kinds | kinds | kinds | kinds ].
  - destruct d as [ ts | m d | ds ]; try (split; [ reflexivity | intros v out msg; split; intros HH; inversion HH; subst; unfold byte_vector, unit_vector, char_vector, string_type in *; exfalso;
      repeat match goal with A : _ \/ _ |- _ => destruct A | A : exists _, _ |- _ => destruct A end; discriminate ]). now apply stored_array.
  - destruct d as [ ts | m d | [ | (name', d) ds ] ]; try (split; [ reflexivity | intros v out msg; split; intros HH; inversion HH; subst; unfold byte_vector, unit_vector, char_vector, string_type in *; exfalso;
      repeat match goal with A : _ \/ _ |- _ => destruct A | A : exists _, _ |- _ => destruct A end; discriminate ]).
    + split.
      * intros [ | | | | | | | | l ]; try reflexivity.
      * intros v out msg. split; intros HH; inversion HH; subst; unfold byte_vector, unit_vector, char_vector, string_type in *; exfalso;
          repeat match goal with A : _ \/ _ |- _ => destruct A | A : exists _, _ |- _ => destruct A end; try discriminate;
          match goal with A : _ ++ _ = [] |- _ => now apply app_eq_nil in A as (_ & A) end.
    + now apply stored_field.
Qed.
Lemma unlimited_type t t' : unlimited t t' -> forall v, has_type t v -> has_type t' v.
Proof.
  induction 1 as [ t | n | n | n | n | n t t' H IH | name t t' fs fs' H IH H' IH' ]; intros v Hv; auto; try (destruct v; cbn [has_type] in *; tauto).
  - destruct v; cbn [has_type] in *; try tauto. destruct Hv as (Hl & Hv). split; [ auto | ]. eapply Forall_impl; [ | exact Hv ]. auto.
  - destruct v as [ | | | | | | | | l ]; try (now destruct Hv). rewrite has_type_struct in *. destruct l as [ | x l ]; [ destruct Hv | ]. cbn [has_types] in *. destruct Hv as (Hx & Hl). split; [ auto | ].
    specialize (IH' (XRec l)). rewrite !has_type_struct in IH'. auto.
Qed.
Lemma unlimited_writes c t t' d w w' v : unlimited t t' -> wf_dtype d -> strings_fit (c_usize_max c) d -> writer c t d = DOk w -> writer c t' d = DOk w' -> has_type t v ->
  write_one c w v = write_one c w' v.
Proof.
  intros H Hw Hs Hr Hr' Hv. pose proof (unlimited_type _ _ H v Hv) as Hv'. destruct (unlimited_alike _ _ H d) as (He & Hu).
  destruct (write_one c w v) as (out, [ [] | e | ]) eqn:E.
  - symmetry. apply (write_exact c t' d); auto. apply (write_exact c t d) in E; auto. now rewrite <- He.
  - symmetry. apply (unstorable_exact c t' d); auto. apply (unstorable_exact c t d) in E as (msg & -> & E); auto. exists msg. split; [ auto | now apply Hu ].
  - exfalso. apply (no_panic_write c t d w v); auto. now rewrite E.
Qed.
Lemma unlimited_accepted m t t' d : unlimited t t' -> accepts m Writing t d -> accepts m Writing t' d.
Proof.
  intros H. revert d. induction H as [ t | n | n | n | n | n t t' H IH | name t t' fs fs' H IH H' IH' ]; intros d; auto; try (destruct d; cbn [accepts scalar_ok is_string_type]; tauto).
  - destruct d; cbn [accepts]; auto. intros (-> & Ha). auto.
  - destruct d as [ | | [ | (name', d) ds ] ]; cbn [accepts]; auto. intros (-> & Ha & Hb). split; [ auto | ]. split; [ auto | ]. exact (IH' (DRecord ds) Hb).
Qed.

(** * Whole files *)
Lemma roomy_items c t t' d r r' : roomy t t' d -> wf_dtype d -> strings_fit (c_usize_max c) d -> reader c t d = DOk r -> reader c t' d = DOk r' -> forall k input, bytes_ok input ->
  run (rreplicate k (read_one c r)) input = run (rreplicate k (read_one c r')) input.
Proof.
  intros H Hw Hs Hr Hr'. induction k as [ | k IH ]; intros input Hb; [ reflexivity | ]. rewrite !run_rreplicate_S, (roomy_reads c t t' d r r' input) by auto.
  destruct (run (read_one c r') input) as ([ v | e | ], rest) eqn:E; cbn [then_]; auto. rewrite IH; [ reflexivity | ].
  apply run_suffix in E as (u & ->). now apply Forall_app in Hb as (_ & Hb).
Qed.
Lemma roomy_file c t t' src f src' : bytes_ok (cur_data src) -> npy_new c src = (Ok f, src') -> strings_fit (c_usize_max c) (h_dtype (nf_header f)) -> roomy t t' (h_dtype (nf_header f)) ->
  accepts (c_usize_max c) Reading t (h_dtype (nf_header f)) -> npy_into_vec c t f = npy_into_vec c t' f.
Proof.
  intros Hb Hf Hs H Ha. pose proof (proj1 (roomy_accepts (c_usize_max c) _ _ _ H) Ha) as Ha'. apply reader_accepts in Ha as (rd & Hr). apply reader_accepts in Ha' as (rd' & Hr').
  destruct (h_pickled (nf_header f)) eqn:Ek.
  - unfold npy_into_vec, npy_data. now rewrite Ek.
  - assert (E : npy_data c t f = DOk {| nr_header := nf_header f; nr_type := rd; nr_src := nf_src f; nr_index := 0 |}) by (unfold npy_data; now rewrite Ek, Hr).
    assert (E' : npy_data c t' f = DOk {| nr_header := nf_header f; nr_type := rd'; nr_src := nf_src f; nr_index := 0 |}) by (unfold npy_data; now rewrite Ek, Hr').
    rewrite (into_vec_run _ _ _ _ E), (into_vec_run _ _ _ _ E'). cbn [nr_type]. unfold run_cursor. pose proof (opened _ _ _ _ Hb Hf) as (Hw & _).
    rewrite (roomy_items c t t' (h_dtype (nf_header f)) rd rd'); auto. apply Forall_dropN. now rewrite (source_kept _ _ _ _ Hf).
Qed.

(** * The room is needed *)
Lemma strip_full k : strip (repeatN 97 k) = repeatN 97 k.
Proof.
  unfold strip, repeatN. assert (E : rev (repeat 97 (N.to_nat k)) = repeat 97 (N.to_nat k)) by (induction (N.to_nat k) as [ | j IH ]; [ reflexivity | cbn [repeat rev]; rewrite IH; clear; induction j; [ reflexivity | cbn; now rewrite IHj ] ]).
  rewrite E. replace (drop_zeros (repeat 97 (N.to_nat k))) with (repeat 97 (N.to_nat k)) by (now destruct (N.to_nat k)). exact E.
Qed.
Lemma room_needed c n t t' ts r r' : cramped n t t' ts -> legal ts -> strings_fit (c_usize_max c) (DPlain ts) ->
  reader c t (DPlain ts) = DOk r -> reader c t' (DPlain ts) = DOk r' ->
  exists item, lenN item = size (DPlain ts) /\ bytes_ok item /\ run (read_one c r) item <> run (read_one c r') item.
Proof.
  intros H Hl Hs Hr Hr'. set (as_ := repeatN 97 (ts_size ts)). assert (E : lenN as_ = ts_size ts) by apply lenN_repeatN.
  assert (F : forall P : N -> Prop, P 97 -> Forall P as_) by (intros P HP; apply Forall_forall; intros x Hx; apply repeat_spec in Hx; now subst).
  enough (G : exists item v, lenN item = size (DPlain ts) /\ bytes_ok item /\ decode t' (DPlain ts) item = Some v /\ ~ has_type t v).
  { destruct G as (item & v & Hi & Hb & Hd & Hn). exists item. split; [ auto | ]. split; [ auto | ]. intros Heq.
    pose proof (item_value c t' (DPlain ts) r' item v [] Hl Hs Hr' Hb Hi Hd) as H2. rewrite app_nil_r in H2. rewrite H2 in Heq.
    pose proof (unreadable_sound c t (DPlain ts) r item Hl Hr Hb) as H3. rewrite Heq in H3. destruct H3 as (b & Hsp & Hlb & Hdb). rewrite app_nil_r in Hsp. subst b.
    apply Hn. apply (decode_typed t (c_usize_max c) (DPlain ts) item v); auto. apply reader_accepts. eauto. }
  assert (SF : strip as_ = as_) by apply strip_full.
  assert (B : bytes_ok as_) by (apply F; reflexivity).
  assert (U : utf32_units (ts_endianness ts) (ts_size ts) (utf32 (ts_endianness ts) as_) = as_) by (apply utf32_units_utf32; [ auto | now apply F ]).
  inversion H as [ ts' Hn Hc Ht Ht' Hts | ts' Hn Hc Ht Ht' Hts | ts' Hn Hc Ht Ht' Hts | ts' Hn Hc Ht Ht' Hts ]; subst ts'; rewrite <- ?Ht, <- ?Ht'; cbn [size]; unfold scalar_size; rewrite Hc.
  - exists as_, (XBytes as_). split; [ auto | ]. split; [ auto | ]. split; [ cbn [decode]; now rewrite Hc, SF | ]. cbn [has_type]. lia.
  - exists (utf32 (ts_endianness ts) as_), (XUnits as_). split; [ rewrite utf32_len; lia | ]. split; [ apply utf32_bytes | ]. split; [ | cbn [has_type]; lia ].
    cbn [decode]. rewrite U. replace (forallb _ as_) with true by (symmetry; apply forallb_forall; apply Forall_forall; now apply F). now rewrite SF.
  - exists (utf32 (ts_endianness ts) as_), (XUnits as_). split; [ rewrite utf32_len; lia | ]. split; [ apply utf32_bytes | ]. split; [ | cbn [has_type]; lia ].
    cbn [decode]. rewrite U. replace (forallb _ as_) with true by (symmetry; apply forallb_forall; apply Forall_forall; now apply F). now rewrite SF.
  - exists as_, (XStr as_). split; [ auto | ]. split; [ auto | ]. assert (A : utf8_string as_ = as_) by (apply utf8_ascii; now apply F).
    split; [ | cbn [has_type]; rewrite A; lia ]. cbn [decode]. rewrite Hc. rewrite SF. rewrite <- A at 1. change utf8_string with utf8. rewrite from_utf8_utf8; [ reflexivity | now apply F ].
Qed.
