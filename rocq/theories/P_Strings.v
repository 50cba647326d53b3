(** Strings. *)
From Verif Require Import M_Base M_Text M_TypeStr M_IO M_Header M_Read M_Serialize M_NpyReader S_TypeStr S_DType S_Shape S_Header S_Text S_Elem S_Strings
  P_Base P_Text P_TypeStr P_IO P_Shape P_Header P_Number P_Elem P_ReadOne P_WriteOne P_Codec P_Sizes.
Open Scope N_scope.

Lemma trimmed_strip item l : trimmed item l <-> l = strip item.
Proof.
  split.
  - intros ((k & ->) & H). rewrite strip_zeros. symmetry. now apply strip_id.
  - intros ->. split; [ apply strip_spec | ]. intros l'. apply strip_end.
Qed.

(** Writing in terms of [encode], both ways. *)
Lemma write_encode c t d w v bs : wf_dtype d -> writer c t d = DOk w -> has_type t v ->
  write_one c w v = (bs, Ok tt) -> encode t d v = Some bs.
Proof.
  intros Hw Hr Hv E. pose proof (writes_all c t d Hw w Hr v Hv) as [ (_ & pre & H) | H ]; rewrite E in H; [ discriminate | ].
  destruct (encode t d v) as [ b | ]; [ apply pair_inj in H as (-> & _); reflexivity | ]. destruct H as (pre & e & H). discriminate.
Qed.
Lemma write_exact c t d w v bs : wf_dtype d -> strings_fit (c_usize_max c) d -> writer c t d = DOk w -> has_type t v ->
  write_one c w v = (bs, Ok tt) <-> encode t d v = Some bs.
Proof.
  intros Hw Hf Hr Hv. split; [ now apply write_encode | ]. intros E.
  pose proof (writes_all c t d Hw w Hr v Hv) as [ (H & _) | H ]; [ contradiction | ]. now rewrite E in H.
Qed.
Lemma write_fails c t d w v : wf_dtype d -> strings_fit (c_usize_max c) d -> writer c t d = DOk w -> has_type t v ->
  encode t d v = None -> exists pre e, write_one c w v = (pre, Err e).
Proof. intros Hw Hf Hr Hv E. pose proof (writes_all c t d Hw w Hr v Hv) as [ (H & _) | H ]; [ contradiction | ]. now rewrite E in H. Qed.
(** Reading in terms of [decode], both ways. *)
Lemma read_decode c t d r item rest v : wf_dtype d -> reader c t d = DOk r -> lenN item = size d -> bytes_ok item ->
  run (read_one c r) (item ++ rest) = (Ok v, rest) -> decode t d item = Some v.
Proof.
  intros Hw Hr Hl Hb E. pose proof (reads_all c t d Hw r Hr item rest Hl Hb) as [ (_ & pre & H) | H ]; rewrite E in H; [ discriminate | ].
  destruct (decode t d item) as [ x | ]; [ apply pair_inj in H as (H & _); apply Ok_inj in H as ->; reflexivity | ]. destruct H as (e & rest' & H). discriminate.
Qed.
Lemma read_exact_item c t d r item rest v : wf_dtype d -> strings_fit (c_usize_max c) d -> reader c t d = DOk r -> lenN item = size d -> bytes_ok item ->
  run (read_one c r) (item ++ rest) = (Ok v, rest) <-> decode t d item = Some v.
Proof.
  intros Hw Hf Hr Hl Hb. split; [ now apply read_decode | ]. intros E.
  pose proof (reads_all c t d Hw r Hr item rest Hl Hb) as [ (H & _) | H ]; [ contradiction | ]. now rewrite E in H.
Qed.
(** Scalars. *)
Lemma fits_bytes m ts : 2 * ts_size ts <= m -> strings_fit m (DPlain ts).
Proof. intros H. cbn [strings_fit]. destruct (ts_char ts); auto. Qed.
Lemma fits_unicode m ts : ts_char ts = TUnicodeStr -> strings_fit m (DPlain ts).
Proof. intros H. cbn [strings_fit]. now rewrite H. Qed.

Lemma padded_some m l p : padded m l = Some p <-> lenN l <= m /\ p = l ++ repeatN 0 (m - lenN l).
Proof.
  split; [ intros H; apply padded_len in H as (_ & H & H'); auto | intros (H & ->); now apply padded_ok ].
Qed.

Lemma writer_dtype c t d w : writer c t d = DOk w -> accepts (c_usize_max c) Writing t d.
Proof. intros H. apply writer_accepts. eauto. Qed.
Lemma reader_dtype c t d r : reader c t d = DOk r -> accepts (c_usize_max c) Reading t d.
Proof. intros H. apply reader_accepts. eauto. Qed.

Lemma write_byte_string c t ts w v content out : legal ts -> 2 * ts_size ts <= c_usize_max c -> ts_char ts = TByteStr -> writer c t (DPlain ts) = DOk w -> has_type t v ->
  byte_content v = Some content ->
  write_one c w v = (out, Ok tt) <-> lenN content <= ts_size ts /\ out = content ++ repeatN 0 (ts_size ts - lenN content).
Proof.
  intros Hl Hf Hc Hw Hv Hb. rewrite (write_exact c t (DPlain ts)) by (auto using fits_bytes). pose proof (writer_dtype _ _ _ _ Hw) as Ha.
  rewrite <- padded_some. destruct t, v; cbn [has_type] in Hv; try (now destruct Hv); try discriminate Hb; apply Some_inj in Hb; subst content; cbn [encode]; rewrite ?Hc; try reflexivity.
  cbn [accepts scalar_ok] in Ha. rewrite Hc in Ha. destruct Ha as ((Ha & _) & _). discriminate.
Qed.

Lemma write_raw c t ts w v content out : legal ts -> 2 * ts_size ts <= c_usize_max c -> ts_char ts = TRawData -> writer c t (DPlain ts) = DOk w -> has_type t v ->
  byte_content v = Some content ->
  write_one c w v = (out, Ok tt) <-> lenN content = ts_size ts /\ out = content.
Proof.
  intros Hl Hf Hc Hw Hv Hb. rewrite (write_exact c t (DPlain ts)) by (auto using fits_bytes). pose proof (writer_dtype _ _ _ _ Hw) as Ha.
  destruct t, v; cbn [has_type] in Hv; try (now destruct Hv); try discriminate Hb; apply Some_inj in Hb; subst content; cbn [encode]; rewrite ?Hc;
    cbn [accepts scalar_ok] in Ha; rewrite Hc in Ha; try (intuition discriminate).
  - destruct (N.eqb_spec (lenN bs) (ts_size ts)) as [ E | E ]; split; [ intros [= <-]; auto | intros (_ & ->); reflexivity | discriminate | intros (H & _); now destruct E ].
  - destruct Hv as (_ & Hv). destruct Ha as ((_ & Ha) & _). split; [ intros [= <-]; split; congruence | intros (_ & ->); reflexivity ].
  - destruct (N.eqb_spec (lenN bs) (ts_size ts)) as [ E | E ]; split; [ intros [= <-]; auto | intros (_ & ->); reflexivity | discriminate | intros (H & _); now destruct E ].
Qed.

Lemma write_unicode c t ts w v us out : legal ts -> ts_char ts = TUnicodeStr -> writer c t (DPlain ts) = DOk w -> has_type t v ->
  unit_content v = Some us ->
  write_one c w v = (out, Ok tt) <->
  lenN us <= ts_size ts /\ Forall (unit_allowed t) us /\ out = flat_map (number (ts_endianness ts) 4) (us ++ repeatN 0 (ts_size ts - lenN us)).
Proof.
  intros Hl Hc Hw Hv Hb. rewrite (write_exact c t (DPlain ts)) by (auto using fits_unicode). pose proof (writer_dtype _ _ _ _ Hw) as Ha.
  destruct t, v; cbn [has_type] in Hv; try (now destruct Hv); try discriminate Hb; apply Some_inj in Hb; subst us; cbn [encode]; rewrite ?Hc; cbn [unit_allowed].
  all: try match goal with |- context [forallb ?f ?l] => 
         replace (forallb f l = true) with (forallb f l = true) by reflexivity;
         assert (Hf : forallb f l = true <-> Forall (fun u => u < 0x110000) l)
           by (rewrite forallb_Forall, !Forall_forall; split; intros Hx u Hu; specialize (Hx u Hu); cbv beta in *; lia);
         destruct (forallb f l) end.
  all: try (rewrite omap_some; split; [ intros (p & Hp & ->); apply padded_some in Hp as (Hp & ->) | intros (H1 & H2 & ->); eexists; split; [ apply padded_some; split; [ exact H1 | reflexivity ] | reflexivity ] ]).
  all: try (split; [ exact Hp | ]; split; [ intuition | reflexivity ]).
  all: try (split; [ discriminate | intros (_ & H & _); apply Hf in H; discriminate ]).
Qed.

Lemma read_raw c ts r item rest v : legal ts -> 2 * ts_size ts <= c_usize_max c -> ts_char ts = TRawData -> reader c RVecU8 (DPlain ts) = DOk r ->
  lenN item = ts_size ts -> bytes_ok item -> run (read_one c r) (item ++ rest) = (Ok v, rest) <-> v = XBytes item.
Proof.
  intros Hl Hf Hc Hr Hn Hb. rewrite (read_exact_item c RVecU8 (DPlain ts)); auto using fits_bytes; [ | cbn [size]; unfold scalar_size; now rewrite Hc ].
  cbn [decode]. rewrite Hc. split; [ intros [= <-]; auto | intros ->; auto ].
Qed.
Lemma read_fixed c ts r n item rest v : legal ts -> 2 * ts_size ts <= c_usize_max c -> reader c (RFixedBytes n) (DPlain ts) = DOk r ->
  lenN item = ts_size ts -> bytes_ok item -> run (read_one c r) (item ++ rest) = (Ok v, rest) <-> v = XBytes item.
Proof.
  intros Hl Hf Hr Hn Hb. pose proof (reader_dtype _ _ _ _ Hr) as ((Hc & _) & _).
  rewrite (read_exact_item c (RFixedBytes n) (DPlain ts)); auto using fits_bytes; [ | cbn [size]; unfold scalar_size; now rewrite Hc ].
  cbn [decode]. split; [ intros [= <-]; auto | intros ->; auto ].
Qed.
Lemma read_bytes c ts r item rest v : legal ts -> 2 * ts_size ts <= c_usize_max c -> ts_char ts = TByteStr -> reader c RVecU8 (DPlain ts) = DOk r ->
  lenN item = ts_size ts -> bytes_ok item -> run (read_one c r) (item ++ rest) = (Ok v, rest) <-> exists l, v = XBytes l /\ trimmed item l.
Proof.
  intros Hl Hf Hc Hr Hn Hb. rewrite (read_exact_item c RVecU8 (DPlain ts)); auto using fits_bytes; [ | cbn [size]; unfold scalar_size; now rewrite Hc ].
  cbn [decode]. rewrite Hc. split.
  - intros [= <-]. eexists; split; [ reflexivity | ]. now apply trimmed_strip.
  - intros (l & -> & H). apply trimmed_strip in H as ->. reflexivity.
Qed.
Lemma read_str8 c ts r item rest v : legal ts -> 2 * ts_size ts <= c_usize_max c -> ts_char ts = TByteStr -> reader c RString (DPlain ts) = DOk r ->
  lenN item = ts_size ts -> bytes_ok item ->
  run (read_one c r) (item ++ rest) = (Ok v, rest) <-> exists s, v = XStr s /\ scalars s /\ trimmed item (utf8 s).
Proof.
  intros Hl Hf Hc Hr Hn Hb. rewrite (read_exact_item c RString (DPlain ts)); auto using fits_bytes; [ | cbn [size]; unfold scalar_size; now rewrite Hc ].
  cbn [decode]. rewrite Hc, omap_some. split.
  - intros (s & H & ->). apply from_utf8_sound in H as (H1 & H2); [ | now apply Forall_strip ]. exists s. split; [ reflexivity | ]. split; [ exact H1 | ]. rewrite H2. now apply trimmed_strip.
  - intros (s & -> & H1 & H2). exists s. split; auto. apply trimmed_strip in H2. rewrite <- H2. now apply from_utf8_utf8.
Qed.

(** The units of a whole [U] item. *)
Lemma item_units e m item : bytes_ok item -> lenN item = 4 * m -> forall us, us = utf32_units e m item <-> item = utf32 e us /\ Forall (fun u => u < 2 ^ 32) us.
Proof.
  intros Hb Hl us. split.
  - intros ->. split; [ | now apply utf32_units_bound ]. unfold utf32, utf32_units. rewrite flat_map_concat_map, map_map.
    rewrite (map_ext_in _ id). 2: { intros x Hx. apply pieces_in in Hx as (Hx & Hx'); auto; [ | lia ]. rewrite <- Hx. now apply number_number_of. }
    rewrite map_id. assert (Hl' : lenN item = 4 * N.of_nat (N.to_nat m)) by lia. clear Hl. revert item Hb Hl'. induction (N.to_nat m) as [ | k IH ]; intros item Hb Hl.
    + cbn [pieces concat]. apply lenN_0. lia.
    + cbn [pieces List.concat]. rewrite <- IH; [ now rewrite takeN_dropN | now apply Forall_dropN | rewrite lenN_dropN; lia ].
  - intros (-> & H). rewrite utf32_len in Hl. symmetry. apply utf32_units_utf32; auto. lia.
Qed.

Lemma read_unicode c t ts r item rest v : t = RVecU32 \/ t = RVecChar \/ t = RString -> legal ts -> ts_char ts = TUnicodeStr -> reader c t (DPlain ts) = DOk r ->
  lenN item = 4 * ts_size ts -> bytes_ok item ->
  run (read_one c r) (item ++ rest) = (Ok v, rest) <->
  exists us l, item = flat_map (number (ts_endianness ts) 4) us /\ Forall (unit_allowed t) us /\ trimmed us l /\ unit_content v = Some l
    /\ has_type t v.
Proof.
  intros Ht Hl Hc Hr Hn Hb. rewrite (read_exact_item c t (DPlain ts)); auto using fits_unicode; [ | cbn [size]; unfold scalar_size; now rewrite Hc ].
  pose proof (item_units (ts_endianness ts) _ _ Hb Hn) as Hu.
  assert (Hf : forall f l, forallb f l = true <-> Forall (fun u : N => f u = true) l) by (intros; apply forallb_Forall).
  assert (B1 : forall us, Forall (fun u => u < 0x110000) us -> Forall (fun u => u < 2 ^ 32) us).
  { intros us H. eapply Forall_impl; [ | exact H ]. intros a Ha. change (2 ^ 32) with 4294967296. cbv beta in Ha. lia. }
  assert (B2 : forall us, forallb (fun u => u <? 0x110000) us = true <-> Forall (fun u => u < 0x110000) us).
  { intros us. rewrite Hf, !Forall_forall. split; intros H u Hi; specialize (H u Hi); cbv beta in *; lia. }
  destruct Ht as [ -> | [ -> | -> ] ]; cbn [decode unit_allowed]; rewrite ?Hc; set (us := utf32_units _ _ item) in *; split.
  - destruct (forallb _ us) eqn:E; [ | discriminate ]. intros [= <-]. destruct (proj1 (Hu us) eq_refl) as (H1 & H2).
    exists us, (strip us). split; [ exact H1 | ]. split; [ now apply B2 | ]. split; [ now apply trimmed_strip | ]. split; [ reflexivity | now apply Forall_strip ].
  - intros (us' & l & H1 & H2 & H3 & H4 & H5). assert (us' = us) as -> by (apply Hu; auto). rewrite (proj2 (B2 us) H2). apply trimmed_strip in H3 as ->.
    destruct v; try (now destruct H5). cbn in H4. congruence.
  - destruct (forallb _ us) eqn:E; [ | discriminate ]. intros [= <-]. destruct (proj1 (Hu us) eq_refl) as (H1 & H2). apply Hf in E.
    exists us, (strip us). split; [ exact H1 | ]. split; [ exact E | ]. split; [ now apply trimmed_strip | ]. split; [ reflexivity | now apply Forall_strip ].
  - intros (us' & l & H1 & H2 & H3 & H4 & H5). assert (us' = us) as -> by (apply Hu; split; [ exact H1 | now apply scalars_u32 ]). rewrite (proj2 (Hf scalar_value us) H2). apply trimmed_strip in H3 as ->.
    destruct v; try (now destruct H5). cbn in H4. congruence.
  - destruct (forallb _ us) eqn:E; [ | discriminate ]. intros [= <-]. destruct (proj1 (Hu us) eq_refl) as (H1 & H2). apply Hf in E.
    exists us, (strip us). split; [ exact H1 | ]. split; [ exact E | ]. split; [ now apply trimmed_strip | ]. split; [ reflexivity | now apply Forall_strip ].
  - intros (us' & l & H1 & H2 & H3 & H4 & H5). assert (us' = us) as -> by (apply Hu; split; [ exact H1 | now apply scalars_u32 ]). rewrite (proj2 (Hf scalar_value us) H2). apply trimmed_strip in H3 as ->.
    destruct v; try (now destruct H5). cbn in H4. congruence.
Qed.

(** * Bounded capacity *)
Lemma longest_prefix_fit cap full : longest_prefix cap full (fit_chars cap full).
Proof.
  destruct (fit_chars_spec full cap) as (t & E & Hl & Ht). split; [ exact Hl | ]. split; [ eauto | ].
  set (p := fit_chars cap full) in *. clearbody p. intros s' tail' E' Hl'. destruct (N.le_gt_cases (lenN s') (lenN (p))) as [ H | H ]; auto. exfalso.
  destruct t as [ | ch t ].
  - rewrite app_nil_r in E. apply (f_equal lenN) in E, E'. rewrite lenN_app in E'. lia.
  - assert (P : exists q, s' = (p ++ [ch]) ++ q).
    { assert (Hq : takeN (lenN (p ++ [ch])) s' = p ++ [ch]).
      { assert (X : takeN (lenN (p ++ [ch])) full = p ++ [ch]).
        { rewrite E. replace (p ++ ch :: t) with ((p ++ [ch]) ++ t) by (now rewrite <- app_assoc). now apply takeN_app. }
        rewrite E', takeN_app_gen in X. replace (lenN (p ++ [ch]) - lenN s') with 0 in X by (rewrite lenN_app; cbn; lia).
        now rewrite takeN_0, app_nil_r in X. }
      exists (dropN (lenN (p ++ [ch])) s'). rewrite <- Hq at 1. now rewrite takeN_dropN. }
    destruct P as (q & ->). change utf8_string with utf8 in *. rewrite utf8_app, lenN_app in Hl'. lia.
Qed.
Lemma longest_prefix_unique cap full a b : longest_prefix cap full a -> longest_prefix cap full b -> a = b.
Proof.
  intros (H1 & (t1 & E1) & M1) (H2 & (t2 & E2) & M2). pose proof (M1 _ _ E2 H2). pose proof (M2 _ _ E1 H1).
  rewrite E1 in E2. apply app_inj_lenN in E2 as (E2 & _); auto. lia.
Qed.
Lemma read_array_string c cap ts r item rest v : legal ts -> 2 * ts_size ts <= c_usize_max c -> reader c (RArrString cap) (DPlain ts) = DOk r ->
  lenN item = ts_size ts -> bytes_ok item ->
  run (read_one c r) (item ++ rest) = (Ok v, rest) <->
  exists full s, v = XStr s /\ scalars full /\ trimmed item (utf8 full) /\ longest_prefix cap full s.
Proof.
  intros Hl Hf Hr Hn Hb. pose proof (reader_dtype _ _ _ _ Hr) as ([ Hc | (_ & Hx) ] & _); [ | discriminate ].
  rewrite (read_exact_item c (RArrString cap) (DPlain ts)); auto using fits_bytes; [ | cbn [size]; unfold scalar_size; now rewrite Hc ].
  cbn [decode]. rewrite omap_some. split.
  - intros (s & H & ->). apply from_utf8_sound in H as (H1 & H2); [ | now apply Forall_strip ]. exists s, (fit_chars cap s).
    split; [ reflexivity | ]. split; [ auto | ]. split; [ rewrite H2; now apply trimmed_strip | apply longest_prefix_fit ].
  - intros (full & s & -> & H1 & H2 & H3). exists full. split.
    + apply trimmed_strip in H2. rewrite <- H2. now apply from_utf8_utf8.
    + f_equal. eapply longest_prefix_unique; [ exact H3 | apply longest_prefix_fit ].
Qed.

(** The other bounded types cut first and trim afterwards. *)
Lemma read_array_bytes c cap ts r item rest v : legal ts -> 2 * ts_size ts <= c_usize_max c -> ts_char ts = TByteStr -> reader c (RArrU8 cap) (DPlain ts) = DOk r ->
  lenN item = ts_size ts -> bytes_ok item ->
  run (read_one c r) (item ++ rest) = (Ok v, rest) <-> exists l, v = XBytes l /\ trimmed (takeN cap item) l.
Proof.
  intros Hl Hf Hc Hr Hn Hb. rewrite (read_exact_item c (RArrU8 cap) (DPlain ts)); auto using fits_bytes; [ | cbn [size]; unfold scalar_size; now rewrite Hc ].
  cbn [decode]. rewrite Hc. split.
  - intros [= <-]. eexists; split; [ reflexivity | ]. now apply trimmed_strip.
  - intros (l & -> & H). apply trimmed_strip in H as ->. reflexivity.
Qed.
Lemma read_array_units c t cap ts r item rest v : t = RArrU32 cap \/ t = RArrChar cap -> legal ts -> reader c t (DPlain ts) = DOk r ->
  lenN item = 4 * ts_size ts -> bytes_ok item ->
  run (read_one c r) (item ++ rest) = (Ok v, rest) <->
  exists us l, item = flat_map (number (ts_endianness ts) 4) us /\ Forall (unit_allowed t) us /\ trimmed (takeN cap us) l /\ v = XUnits l.
Proof.
  intros Ht Hl Hr Hn Hb.
  assert (Hc : ts_char ts = TUnicodeStr) by (pose proof (reader_dtype _ _ _ _ Hr) as H; destruct Ht as [ -> | -> ]; apply H).
  rewrite (read_exact_item c t (DPlain ts)); auto using fits_unicode; [ | cbn [size]; unfold scalar_size; now rewrite Hc ].
  pose proof (item_units (ts_endianness ts) _ _ Hb Hn) as Hu.
  assert (B1 : forall us, Forall (fun u => u < 0x110000) us -> Forall (fun u => u < 2 ^ 32) us).
  { intros us H. eapply Forall_impl; [ | exact H ]. intros a Ha. change (2 ^ 32) with 4294967296. cbv beta in Ha. lia. }
  assert (B2 : forall us, forallb (fun u => u <? 0x110000) us = true <-> Forall (fun u => u < 0x110000) us).
  { intros us. rewrite forallb_Forall, !Forall_forall. split; intros H u Hi; specialize (H u Hi); cbv beta in *; lia. }
  destruct Ht as [ -> | -> ]; cbn [decode unit_allowed]; set (us := utf32_units _ _ item) in *; split.
  - destruct (forallb _ us) eqn:E; [ | discriminate ]. intros [= <-]. destruct (proj1 (Hu us) eq_refl) as (H1 & H2).
    exists us, (strip (takeN cap us)). split; [ exact H1 | ]. split; [ now apply B2 | ]. split; [ now apply trimmed_strip | reflexivity ].
  - intros (us' & l & H1 & H2 & H3 & ->). assert (us' = us) as -> by (apply Hu; auto). rewrite (proj2 (B2 us) H2). apply trimmed_strip in H3 as ->. reflexivity.
  - destruct (forallb _ us) eqn:E; [ | discriminate ]. intros [= <-]. destruct (proj1 (Hu us) eq_refl) as (H1 & H2). apply forallb_Forall in E.
    exists us, (strip (takeN cap us)). split; [ exact H1 | ]. split; [ exact E | ]. split; [ now apply trimmed_strip | reflexivity ].
  - intros (us' & l & H1 & H2 & H3 & ->). assert (us' = us) as -> by (apply Hu; split; [ exact H1 | now apply scalars_u32 ]).
    rewrite (proj2 (forallb_Forall scalar_value us) H2). apply trimmed_strip in H3 as ->. reflexivity.
Qed.

(** Cutting first is the same as trimming first unless the cut leaves a NUL at the end. *)
Lemma cut_trim cap item l full : trimmed (takeN cap item) l -> trimmed item full ->
  lenN full <= cap \/ no_final_zero (takeN cap full) -> first_elements cap full l.
Proof.
  intros H1 H2 H. apply trimmed_strip in H1 as ->. destruct H2 as ((k & ->) & H2).
  destruct (N.le_gt_cases (lenN full) cap) as [ Hc | Hc ].
  - destruct (takeN_padded cap full k Hc) as (j & ->). rewrite strip_zeros, strip_id by auto. split; [ exact Hc | ]. exists []. rewrite app_nil_r. auto.
  - rewrite takeN_app_gen. replace (cap - lenN full) with 0 by lia. rewrite takeN_0, app_nil_r.
    destruct H as [ H | H ]; [ lia | ]. rewrite strip_id by auto. split; [ rewrite lenN_takeN; lia | ].
    exists (dropN cap full). rewrite takeN_dropN, lenN_takeN. split; auto. right. lia.
Qed.

Lemma read_array_raw c cap ts r item rest v : legal ts -> 2 * ts_size ts <= c_usize_max c -> ts_char ts = TRawData -> reader c (RArrU8 cap) (DPlain ts) = DOk r ->
  lenN item = ts_size ts -> bytes_ok item ->
  run (read_one c r) (item ++ rest) = (Ok v, rest) <-> v = XBytes (item ++ repeatN 0 (cap - ts_size ts)).
Proof.
  intros Hl Hf Hc Hr Hn Hb. rewrite (read_exact_item c (RArrU8 cap) (DPlain ts)); auto using fits_bytes; [ | cbn [size]; unfold scalar_size; now rewrite Hc ].
  cbn [decode]. rewrite Hc, Hn. split; [ intros [= <-]; auto | intros ->; auto ].
Qed.
(** Concrete cases. *)
Lemma no_final_zero_last l : last l 1 <> 0 -> no_final_zero l.
Proof. intros H l' ->. rewrite last_last in H. now destruct H. Qed.
