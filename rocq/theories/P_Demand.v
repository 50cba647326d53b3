(** Proofs for C88. *)
From Verif Require Import M_Base M_Text M_TypeStr M_PyLit M_IO M_Header M_Read M_Serialize M_DTypeErr M_NpyReader M_Write M_Demand.
From Verif Require Import S_TypeStr S_DType S_Shape S_Header S_Text S_Elem S_Strings S_Reader S_Demand
  P_Base P_Text P_IO P_Number P_Shape P_Header P_Elem P_ReadOne P_ElemT P_Interp P_WriteHeader.
Require Import ZifyBool ZifyNat ZifyN.
Open Scope N_scope.

Lemma total_cons x l : total (x :: l) = x + total l.
Proof. reflexivity. Qed.
Lemma total_app a b : total (a ++ b) = total a + total b.
Proof. induction a as [ | x a IH ]; [ reflexivity | ]. cbn [app]. rewrite !total_cons, IH. lia. Qed.
Lemma total_in x l : In x l -> x <= total l.
Proof. induction l as [ | y l IH ]; [ intros [] | ]. rewrite total_cons. intros [ -> | H ]; [ lia | specialize (IH H); lia ]. Qed.
(** All but the last buffer were filled. *)
Lemma proportional {A} (p : rprog A) : forall bs, total (removelast (buffers p bs)) <= lenN bs.
Proof.
  induction p as [ a | e | | n eof k IH ]; intros bs; cbn [buffers removelast]; try (cbn; lia). destruct (N.leb_spec n (lenN bs)) as [ H | H ]; [ | cbn; lia ].
  specialize (IH (takeN n bs) (dropN n bs)). rewrite lenN_dropN in IH. destruct (buffers (k (takeN n bs)) (dropN n bs)) as [ | x l ]; [ cbn; lia | ].
  change (removelast (n :: x :: l)) with (n :: removelast (x :: l)). rewrite total_cons. lia.
Qed.
Lemma total_last l : l <> [] -> exists x, In x l /\ total l = total (removelast l) + x.
Proof.
  intros H. destruct (exists_last H) as (l' & x & ->). exists x. rewrite removelast_last, total_app. cbn [total fold_right]. split; [ apply in_or_app; right; now left | lia ].
Qed.

(** No path of the program reads more than [m] bytes. *)
Fixpoint at_most {A} (p : rprog A) (m : N) : Prop :=
  match p with
  | RRead n _ k => n <= m /\ forall bs, lenN bs = n -> at_most (k bs) (m - n)
  | _ => True
  end.
Lemma at_most_total {A} (p : rprog A) : forall m bs, at_most p m -> total (buffers p bs) <= m.
Proof.
  induction p as [ a | e | | n eof k IH ]; intros m bs H; cbn [buffers]; try (cbn; lia). destruct H as (H & Hk). rewrite total_cons. destruct (N.leb_spec n (lenN bs)) as [ L | L ]; [ | cbn; lia ].
  assert (E : lenN (takeN n bs) = n) by (rewrite lenN_takeN; lia). specialize (IH (takeN n bs) (m - n) (dropN n bs) (Hk _ E)). lia.
Qed.
Lemma at_most_le {A} (p : rprog A) : forall m m', m <= m' -> at_most p m -> at_most p m'.
Proof.
  induction p as [ a | e | | n eof k IH ]; intros m m' L H; cbn [at_most] in *; auto. destruct H as (H & Hk). split; [ lia | ]. intros bs E. apply (IH bs (m - n)); [ lia | auto ].
Qed.
Lemma at_most_bind {A B} (p : rprog A) (f : A -> rprog B) m' : (forall a, at_most (f a) m') -> forall m, at_most p m -> at_most (rbind p f) (m + m').
Proof.
  intros Hf. induction p as [ a | e | | n eof k IH ]; intros m H; cbn [rbind at_most] in *; auto.
  - apply (at_most_le _ m'); [ lia | apply Hf ].
  - destruct H as (H & Hk). split; [ lia | ]. intros bs E. replace (m + m' - n) with ((m - n) + m') by lia. now apply IH, Hk.
Qed.
Lemma at_most_then {A B} (p : rprog A) (f : A -> rprog B) m : (forall a, at_most (f a) 0) -> at_most p m -> at_most (rbind p f) m.
Proof. intros Hf H. rewrite <- (N.add_0_r m). now apply at_most_bind. Qed.
Lemma at_most_exact n : at_most (read_exact n) n.
Proof. split; [ lia | intros bs _; exact I ]. Qed.
Lemma at_most_vec c n : at_most (read_vec c n) n.
Proof. unfold read_vec. destruct (isize_max c <? n); [ exact I | apply at_most_exact ]. Qed.
Lemma at_most_replicate {A} (p : rprog A) m k : at_most p m -> at_most (rreplicate k p) (N.of_nat k * m).
Proof.
  intros H. induction k as [ | k IH ]; cbn [rreplicate]; [ exact I | ]. replace (N.of_nat (S k) * m) with (m + N.of_nat k * m) by lia. apply at_most_bind; [ | exact H ].
  intros a. apply at_most_then; [ intros l; exact I | exact IH ].
Qed.
Lemma at_most_bits c n sw : at_most (read_bits c n sw) n.
Proof. apply at_most_then; [ intros a; exact I | apply at_most_exact ]. Qed.
Lemma at_most_codepoint c sw : at_most (read_codepoint c sw) 4.
Proof. apply at_most_then; [ intros a; destruct (a <? 0x110000); exact I | apply at_most_bits ]. Qed.
Lemma at_most_char c sw : at_most (read_char c sw) 4.
Proof. apply at_most_then; [ intros a; destruct (is_scalar a); exact I | apply at_most_bits ]. Qed.

Definition item_at_most (c : cfg) (t : rty) (d : dtype) : Prop := forall r, reader c t d = DOk r -> at_most (read_one c r) (size d).
Lemma at_most_scalar c t d : (forall n t', t <> RArray n t') -> (forall fs, t <> RStruct fs) -> item_at_most c t d.
Proof.
  intros Ha Hs r Hr. destruct t; try (now destruct (Ha _ _ eq_refl)); try (now destruct (Hs _ eq_refl)); cbn [reader] in Hr.
  - apply dbind_ok in Hr as (sw & H & [= <-]). apply prim_swap_ok in H as (ts & -> & Hp & ->). apply prim_supports_ok in Hp as (Hn & Hc).
    replace (size (DPlain ts)) with (wbytes w).
    2:{ cbn [size]. unfold scalar_size. rewrite Hn. destruct signed; [ | now rewrite Hc ]. destruct Hc as [ -> | (_ & [ -> | -> ]) ]; reflexivity. }
    cbn [read_one read_prim]. apply at_most_then; [ intros a; exact I | apply at_most_bits ].
  - apply dbind_ok in Hr as (sw & H & [= <-]). apply prim_swap_ok in H as (ts & -> & Hp & ->). apply prim_supports_ok in Hp as (Hn & Hc).
    replace (size (DPlain ts)) with (fbytes w) by (cbn [size]; unfold scalar_size; now rewrite Hn, Hc).
    cbn [read_one read_prim]. apply at_most_then; [ intros a; exact I | apply at_most_bits ].
  - apply dbind_ok in Hr as (sw & H & [= <-]). apply prim_swap_ok in H as (ts & -> & Hp & ->). apply prim_supports_ok in Hp as (Hn & Hc).
    replace (size (DPlain ts)) with 1 by (cbn [size]; unfold scalar_size; now rewrite Hn, Hc).
    cbn [read_one read_prim]. apply at_most_then; [ intros a; cbv zeta; destruct (2 <=? nth 0 a 0); exact I | apply at_most_exact ].
  - apply dbind_ok in Hr as (sw & H & [= <-]). apply complex_swap_ok in H as (ts & -> & Hn & Hc & ->).
    replace (size (DPlain ts)) with (cbytes w + cbytes w) by (cbn [size]; unfold scalar_size; rewrite Hn, Hc; lia).
    cbn [read_one]. apply at_most_bind; [ | apply at_most_bits ]. intros a. apply at_most_then; [ intros b; exact I | apply at_most_bits ].
  - apply dbind_ok in Hr as (i & H & [= <-]). apply byte_vec_ok in H as (ts & -> & Hm & [ (Hc & ->) | (Hc & ->) ]); cbn [fst snd].
    all: replace (size (DPlain ts)) with (ts_size ts) by (cbn [size]; unfold scalar_size; now rewrite Hc).
    all: cbn [read_one]; apply at_most_then; [ intros a; exact I | apply at_most_vec ].
  - apply dbind_ok in Hr as ([] & H & [= <-]). apply fixed_bytes_ok in H as (ts & -> & Hm & Hc & Hn).
    replace (size (DPlain ts)) with n by (cbn [size]; unfold scalar_size; now rewrite Hc).
    cbn [read_one]. apply at_most_then; [ intros a; exact I | apply at_most_exact ].
  - apply dbind_ok in Hr as (i & H & [= <-]).
    assert (G : exists ts b, d = DPlain ts /\ i = (ts_size ts, b, ts) /\ (if b then ts_char ts = TByteStr else ts_char ts = TRawData /\ ts_size ts <= n)).
    { apply arr_byte_vec_ok in H as (ts & -> & Hm & [ (Hc & ->) | (Hc & Hn & ->) ]); [ exists ts, true | exists ts, false ]; auto. }
    destruct G as (ts & b & -> & -> & Hb). cbn [fst snd].
    replace (size (DPlain ts)) with (N.min n (ts_size ts) + (ts_size ts - n)).
    2:{ cbn [size]. unfold scalar_size. destruct b; [ rewrite Hb | destruct Hb as (-> & _) ]; lia. }
    cbn [read_one]. apply at_most_bind; [ | apply at_most_exact ]. intros a. apply at_most_then; [ intros u; exact I | ]. destruct (n <? ts_size ts); [ apply at_most_vec | exact I ].
  - apply dbind_ok in Hr as (p & H & [= <-]). apply unicode_ok in H as (ts & -> & Hm & Hc & ->). cbn [fst snd].
    replace (size (DPlain ts)) with (N.of_nat (N.to_nat (ts_size ts)) * 4) by (cbn [size]; unfold scalar_size; rewrite Hc; lia).
    cbn [read_one]. apply at_most_then; [ intros a; exact I | ]. apply at_most_replicate, at_most_codepoint.
  - apply dbind_ok in Hr as (p & H & [= <-]). apply unicode_ok in H as (ts & -> & Hm & Hc & ->). cbn [fst snd].
    replace (size (DPlain ts)) with (N.of_nat (N.to_nat (ts_size ts)) * 4) by (cbn [size]; unfold scalar_size; rewrite Hc; lia).
    cbn [read_one]. apply at_most_then; [ intros a; exact I | ]. apply at_most_replicate, at_most_char.
  - apply string_reader_ok in Hr as (ts & -> & Hm & [ (Hc & ->) | (Hc & ->) ]).
    + replace (size (DPlain ts)) with (N.of_nat (N.to_nat (ts_size ts)) * 4) by (cbn [size]; unfold scalar_size; rewrite Hc; lia).
      cbn [read_one]. apply at_most_then; [ intros a; exact I | ]. apply at_most_replicate, at_most_char.
    + replace (size (DPlain ts)) with (ts_size ts) by (cbn [size]; unfold scalar_size; now rewrite Hc).
      cbn [read_one]. apply at_most_then; [ intros a; destruct (from_utf8 (truncate_trailing_nuls a)); exact I | apply at_most_vec ].
  - apply dbind_ok in Hr as (p & H & [= <-]). apply unicode_arr_ok in H as (ts & -> & Hm & Hc & ->). cbn [fst snd].
    replace (size (DPlain ts)) with (N.of_nat (N.to_nat (N.min (ts_size ts) n)) * 4 + N.of_nat (N.to_nat (ts_size ts - n)) * 4) by (cbn [size]; unfold scalar_size; rewrite Hc; lia).
    cbn [read_one]. apply at_most_bind; [ | apply at_most_replicate, at_most_codepoint ]. intros a. apply at_most_then; [ intros u; exact I | ]. apply at_most_replicate, at_most_codepoint.
  - apply dbind_ok in Hr as (p & H & [= <-]). apply unicode_arr_ok in H as (ts & -> & Hm & Hc & ->). cbn [fst snd].
    replace (size (DPlain ts)) with (N.of_nat (N.to_nat (N.min (ts_size ts) n)) * 4 + N.of_nat (N.to_nat (ts_size ts - n)) * 4) by (cbn [size]; unfold scalar_size; rewrite Hc; lia).
    cbn [read_one]. apply at_most_bind; [ | apply at_most_replicate, at_most_char ]. intros a. apply at_most_then; [ intros u; exact I | ]. apply at_most_replicate, at_most_char.
  - apply array_string_reader_ok in Hr as (ts & -> & Hm & Hc & ->).
    replace (size (DPlain ts)) with (ts_size ts) by (cbn [size]; unfold scalar_size; now rewrite Hc).
    cbn [read_one]. apply at_most_then; [ intros a; destruct (from_utf8 (truncate_trailing_nuls a)); exact I | apply at_most_vec ].
Qed.
Lemma at_most_fields c fs : Forall (fun f => forall d, item_at_most c (snd f) d) fs -> forall ds rs, map fst ds = map fst fs -> readers c fs (map snd ds) = DOk rs ->
  at_most (read_fields c rs) (size_fields ds).
Proof.
  induction 1 as [ | (name, t) fs Hf Hfs IH ]; intros [ | (name', d) ds ] rs Hn Hr; try discriminate Hn; cbn [map fst snd] in *.
  - injection Hr as <-. exact I.
  - injection Hn as -> Hn. cbn [readers] in Hr. fold (readers c) in Hr. apply dbind_ok in Hr as (r & Hr & H). apply dbind_ok in H as (rs' & Hrs & H). injection H as <-.
    cbn [read_fields size_fields] in *. fold (read_fields c). fold size_fields in *. apply at_most_bind; [ | exact (Hf d r Hr) ].
    intros a. apply at_most_then; [ intros l; exact I | now apply IH ].
Qed.
Lemma at_most_item c t : forall d, item_at_most c t d.
Proof.
  induction t as [ t Ha Hs | n t IH | fs IH ] using rty_rect'; intros d.
  - now apply at_most_scalar.
  - intros r Hr. cbn [reader] in Hr. apply dbind_ok in Hr as (ty & Hty & H). apply array_inner_ok in Hty as ->. apply dbind_ok in H as (r' & Hr & [= <-]).
    replace (size (DArray n ty)) with (N.of_nat (N.to_nat n) * size ty) by (cbn [size]; lia). cbn [read_one].
    apply at_most_then; [ intros l; exact I | ]. apply at_most_replicate. exact (IH ty r' Hr).
  - intros r Hr. rewrite reader_struct in Hr. apply dbind_ok in Hr as (dts & Hd & H). apply extract_ok in Hd as (ds & -> & Hn & ->).
    apply dbind_ok in H as (rs & Hrs & [= <-]). rewrite size_record, read_one_struct. apply at_most_then; [ intros l; exact I | ]. eapply at_most_fields; eauto.
Qed.
Lemma item_demand c t d r bs : reader c t d = DOk r -> total (buffers (read_one c r) bs) <= size d.
Proof. intros H. apply at_most_total. now apply (at_most_item c t d). Qed.

(** Opening. *)
Lemma buffers_bind {A B} (p : rprog A) (f : A -> rprog B) : forall bs, buffers (rbind p f) bs = buffers p bs ++ match run p bs with (Ok a, rest) => buffers (f a) rest | _ => [] end.
Proof.
  induction p as [ a | e | | n eof k IH ]; intros bs; cbn [rbind buffers run app]; try reflexivity.
  destruct (n <=? lenN bs); [ cbn [app]; now rewrite IH | reflexivity ].
Qed.
Lemma buffers_lift {A} (r : res A) bs : buffers (rlift r) bs = [].
Proof. destruct r; reflexivity. Qed.
Lemma open_list c bs : buffers (read_and_interpret c) bs =
  8 :: (if 8 <=? lenN bs then
          if eqb_list (takeN 6 (takeN 8 bs)) magic then
            match get_version_props (nth 6 (takeN 8 bs) 0, nth 7 (takeN 8 bs) 0) with
            | None => []
            | Some p => let w := if vp_u32 p then 4 else 2 in
              w :: (if w <=? lenN (dropN 8 bs) then [le_value (takeN w (dropN 8 bs))] else [])
            end
          else []
        else []).
Proof.
  unfold read_and_interpret, read_header, read_pre_header. cbn [rbind]. unfold read_magic_and_version. cbn [rbind buffers]. f_equal. destruct (8 <=? lenN bs); [ | reflexivity ].
  destruct (eqb_list _ _); [ | reflexivity ]. cbn [rbind]. destruct (get_version_props _) as [ p | ]; [ | reflexivity ]. cbv zeta. unfold read_exact at 1. cbn [rbind buffers fst snd]. f_equal.
  match goal with |- context [ if ?b then buffers _ _ else _ ] => destruct b end; [ | reflexivity ]. cbn [rbind read_exact buffers fst snd]. f_equal.
  match goal with |- (if ?b then _ else _) = _ => destruct b end; [ | reflexivity ]. cbn [rbind].
  match goal with |- context [ parse_header_text ?x ] => destruct (parse_header_text x) end; cbn [rlift rbind]; [ apply buffers_lift | reflexivity | reflexivity ].
Qed.
Lemma open_demand c bs : bytes_ok bs -> (List.length (buffers (read_and_interpret c) bs) <= 3)%nat
  /\ Forall (fun n => n <= 2 ^ 32 - 1) (buffers (read_and_interpret c) bs)
  /\ (nth 6 bs 0 = 1 -> Forall (fun n => n <= 65535) (buffers (read_and_interpret c) bs)).
Proof.
  intros Hb. rewrite open_list. assert (B8 : 8 <= 2 ^ 32 - 1) by (vm_compute; discriminate).
  destruct (N.leb_spec 8 (lenN bs)) as [ L | L ]; [ | cbn [List.length]; repeat apply conj; [ lia | repeat constructor; exact B8 | intros _; repeat constructor; lia ] ].
  destruct (eqb_list _ _); [ | cbn [List.length]; repeat apply conj; [ lia | repeat constructor; exact B8 | intros _; repeat constructor; lia ] ].
  assert (E6 : nth 6 (takeN 8 bs) 0 = nth 6 bs 0).
  { do 7 (destruct bs as [ | ? bs ]; [ reflexivity | ]). reflexivity. }
  rewrite E6. destruct (get_version_props _) as [ p | ] eqn:Ep; [ | cbn [List.length]; repeat apply conj; [ lia | repeat constructor; exact B8 | intros _; repeat constructor; lia ] ].
  cbv zeta. set (w := if vp_u32 p then 4 else 2). assert (Bw : w <= 4) by (unfold w; destruct (vp_u32 p); lia).
  assert (B4 : 4 <= 2 ^ 32 - 1) by (vm_compute; discriminate).
  destruct (N.leb_spec w (lenN (dropN 8 bs))) as [ L' | L' ].
  2:{ cbn [List.length]. repeat apply conj; [ lia | constructor; [ exact B8 | constructor; [ lia | constructor ] ] | intros _; constructor; [ lia | constructor; [ lia | constructor ] ] ]. }
  assert (Hv : le_value (takeN w (dropN 8 bs)) < 256 ^ w).
  { assert (HB : Forall (fun b => b < 256) (takeN w (dropN 8 bs))) by (apply Forall_takeN, Forall_dropN; exact Hb). apply le_value_bound in HB. rewrite lenN_takeN in HB. now replace (N.min w (lenN (dropN 8 bs))) with w in HB by lia. }
  cbn [List.length]. split; [ lia | ]. split.
  - constructor; [ exact B8 | constructor; [ lia | constructor; [ | constructor ] ] ]. unfold w in *. destruct (vp_u32 p); [ change (256 ^ 4) with (2 ^ 32) in Hv | change (256 ^ 2) with 65536 in Hv ]; lia.
  - intros E1. rewrite E1 in Ep. assert (vp_u32 p = false) as Ew.
    { unfold get_version_props in Ep. cbn [fst snd] in Ep. revert Ep. repeat match goal with |- context [ if ?b then _ else _ ] => destruct b eqn:? end; intros Ep; try discriminate Ep; try (injection Ep as <-; reflexivity); lia. }
    unfold w in *. rewrite Ew in *. change (256 ^ 2) with 65536 in Hv. repeat constructor; lia.
Qed.

(** Whole files. *)
Lemma buffers_replicate {A} (p : rprog A) (P : N -> Prop) : (forall bs, Forall P (buffers p bs)) -> forall k bs, Forall P (buffers (rreplicate k p) bs).
Proof.
  intros H. induction k as [ | k IH ]; intros bs; cbn [rreplicate]; [ constructor | ]. rewrite buffers_bind. apply Forall_app. split; [ apply H | ].
  destruct (run p bs) as ([ a | e | ], rest); try constructor. rewrite buffers_bind. apply Forall_app. split; [ apply IH | ]. destruct (run (rreplicate k p) rest) as ([ l | e | ], rest'); constructor.
Qed.
Lemma file_demand c t bs : bytes_ok bs ->
  Forall (fun n => n <= 2 ^ 32 - 1 \/ exists h rest, run (read_and_interpret c) bs = (Ok h, rest) /\ n <= size (h_dtype h)) (buffers (into_vec_prog c t) bs).
Proof.
  intros Hb. unfold into_vec_prog. rewrite buffers_bind. apply Forall_app. split.
  - eapply Forall_impl; [ | exact (proj1 (proj2 (open_demand c bs Hb))) ]. intros n H. now left.
  - destruct (run (read_and_interpret c) bs) as ([ h | e | ], rest); try constructor. destruct (h_pickled h); [ constructor | ].
    destruct (reader c t (h_dtype h)) as [ r | e ] eqn:Er; [ | constructor ]. rewrite buffers_bind. apply Forall_app. split.
    + apply buffers_replicate. intros bs'. rewrite Forall_forall. intros n Hn. right. exists h, rest. split; [ reflexivity | ].
      pose proof (item_demand c t (h_dtype h) r bs' Er). apply total_in in Hn. lia.
    + destruct (run (rreplicate _ _) rest) as ([ l | e | ], rest'); constructor.
Qed.
Lemma bounded_total {A} (p : rprog A) m bs : Forall (fun n => n <= m) (buffers p bs) -> total (buffers p bs) <= lenN bs + m.
Proof.
  intros H. destruct (buffers p bs) as [ | x l ] eqn:E; [ cbn; lia | ]. rewrite <- E in *. destruct (total_last (buffers p bs)) as (y & Hy & ->); [ rewrite E; discriminate | ].
  rewrite Forall_forall in H. specialize (H y Hy). pose proof (proportional p bs). lia.
Qed.
Lemma file_total c t bs h rest : bytes_ok bs -> run (read_and_interpret c) bs = (Ok h, rest) ->
  total (buffers (into_vec_prog c t) bs) <= lenN bs + N.max (2 ^ 32 - 1) (size (h_dtype h)).
Proof.
  intros Hb H. apply bounded_total. eapply Forall_impl; [ | exact (file_demand c t bs Hb) ]. cbv beta. intros n [ L | (h' & rest' & E & L) ]; [ lia | ]. rewrite H in E. injection E as <- _. lia.
Qed.
Lemma replicate_length c t d r : wf_dtype d -> reader c t d = DOk r -> forall k bs vs rest, bytes_ok bs -> run (rreplicate k (read_one c r)) bs = (Ok vs, rest) ->
  List.length vs = k /\ lenN bs = N.of_nat k * size d + lenN rest.
Proof.
  intros Hw Hr. induction k as [ | k IH ]; intros bs vs rest Hb H.
  - cbn in H. injection H as <- <-. split; [ reflexivity | lia ].
  - rewrite run_rreplicate_S in H. pose proof (read_one_total c t d r Hw Hr bs Hb) as Hone. destruct (run (read_one c r) bs) as ([ v | e | ], rest1); cbn [then_] in H; try discriminate H.
    destruct Hone as (b & -> & Lb & _). apply Forall_app in Hb as (_ & Hb). destruct (run (rreplicate k (read_one c r)) rest1) as ([ l | e | ], rest2) eqn:E; cbn [then_] in H; try discriminate H.
    injection H as <- <-. destruct (IH _ _ _ Hb E) as (<- & L). rewrite lenN_app. cbn [List.length]. split; [ reflexivity | lia ].
Qed.
Lemma items_demand c t bs h vs rest : bytes_ok bs -> run (into_vec_prog c t) bs = (Ok (h, vs), rest) -> lenN vs * size (h_dtype h) <= lenN bs.
Proof.
  intros Hb H. unfold into_vec_prog in H. rewrite run_bind in H. destruct (run (read_and_interpret c) bs) as ([ h' | e | ], rest') eqn:E; cbn [then_] in H; try discriminate H.
  destruct (read_wf c bs h' rest' Hb E) as (Hw & _). destruct (run_suffix _ _ _ _ E) as (used & ->). destruct (h_pickled h'); [ discriminate H | ]. destruct (reader c t (h_dtype h')) as [ r | e ] eqn:Er; [ | discriminate H ].
  rewrite run_bind in H. destruct (run (rreplicate _ _) rest') as ([ l | e | ], rest2) eqn:E2; cbn [then_] in H; try discriminate H. injection H as <- <- <-.
  apply Forall_app in Hb as (_ & Hb). destruct (replicate_length c t _ r Hw Er _ _ _ _ Hb E2) as (L1 & L2). rewrite lenN_app. unfold lenN at 1. rewrite L1. lia.
Qed.

(** Small files: strings of [m] bytes, [n] of them. *)
Definition strings (m : N) : dtype := DPlain {| ts_endianness := Irrelevant; ts_char := TByteStr; ts_size := m; ts_units := None |}.
Lemma strings_descr m : descr (strings m) = lit "'|S" ++ dec m ++ lit "'".
Proof. unfold strings. cbn [descr]. cbn [descr_parts snd]. unfold type_str_display. cbn [ts_endianness ts_char ts_size ts_units ts_pickled endianness_to_str type_char_to_str]. rewrite app_nil_r. reflexivity. Qed.
Lemma pickled_says c bs h rest : run (read_and_interpret c) bs = (Ok h, rest) -> h_pickled h = uses_pickled_array (h_dtype h).
Proof.
  intros H. apply preamble_exact in H as (pre & txt & hv & d & shape & o & -> & _ & _ & _ & Hp). apply from_parts_ok in Hp as (-> & _ & _ & _ & _ & Hk & _). exact Hk.
Qed.
Lemma small_file m n : m < 2 ^ 64 -> n < 2 ^ 64 -> exists file, lenN file <= 128 /\ forall c, m <= c_usize_max c ->
  exists h, run (read_and_interpret c) file = (Ok h, []) /\ h_dtype h = strings m /\ h_n_records h = n /\ h_pickled h = false
  /\ reader c RVecU8 (strings m) = DOk (RdBytes m true).
Proof.
  intros Hm Hn. set (c0 := {| c_big := false; c_usize_max := 2 ^ 64 - 1; c_ovf_panics := true |}).
  assert (Hno : no_overflow [n]).
  { intros [ | [ | k ] ]; cbn [firstn skipn count fold_right]; rewrite ?firstn_nil, ?skipn_nil; cbn [fold_right]; change (2 ^ 64) with 18446744073709551616 in *; lia. }
  pose proof (dec_length_u64 n Hn) as Hd. pose proof (dec_length_u64 m Hm) as Hd'.
  set (T := utf8 (header_dict (strings m) OrderC [n])).
  assert (HT : T = header_dict (strings m) OrderC [n]).
  { apply utf8_ascii. unfold header_dict. rewrite strings_descr. cbn [flat_map]. rewrite app_nil_r. repeat apply ascii_app; try apply dec_ascii; try (vm_compute; repeat constructor). }
  assert (LT : lenN T <= 100).
  { rewrite HT. unfold header_dict. rewrite strings_descr. cbn [flat_map]. rewrite app_nil_r, !lenN_app.
    change (lenN (lit "{'descr': ")) with 10. change (lenN (lit "'|S")) with 3. change (lenN (lit "'")) with 1. change (lenN (lit ", 'fortran_order': ")) with 19. change (lenN (lit "False")) with 5.
    change (lenN (lit ", 'shape': (")) with 12. change (lenN (lit ", ")) with 2. change (lenN (lit "), }")) with 4. lia. }
  destruct (write_header_only c0 (strings m) OrderC [n] empty_sink) as (res, s') eqn:E.
  assert (res = Ok tt) as ->.
  { change res with (fst (res, s')). rewrite <- E. apply header_written; [ exact I | auto | reflexivity | left; fold T; lia ]. }
  destruct (header_text_exact c0 (strings m) OrderC [n] empty_sink s' E eq_refl) as (hdr & major & pad & Hs & [ (len & Hh & Hl & _) _ Ha _ _ ] & Hp). fold T in Hh.
  assert (Hw : wf_dtype (strings m)) by (cbn [wf_dtype strings]; unfold legal; cbn; repeat apply conj; auto; try discriminate).
  destruct (header_round_trip c0 (strings m) OrderC [n] empty_sink s' E eq_refl Hw) as (hdr' & Hs' & _ & Hrun); [ constructor; [ exact Hn | constructor ] | exact Hno | ].
  rewrite Hs in Hs'. apply app_inv_head in Hs'. subst hdr'. exists hdr. split.
  - assert (lenN hdr < 192); [ | lia ]. rewrite Hh. rewrite lenN_cons, !lenN_app, lenN_repeatN, Hl. change (lenN (lit "NUMPY")) with 5. change (lenN [major; 0]) with 2. change (lenN [10]) with 1. destruct (major =? 1); lia.
  - intros c Hc. assert (Hu : (m <=? c_usize_max c) = true) by (now apply N.leb_le).
    destruct (Hrun c []) as (h & Hr & Hdt & Hsh & Ho & Hcnt).
    { right. exists m. cbn [num_bytes strings]. unfold ts_num_bytes, usize_try_from. cbn [ts_size ts_char]. now rewrite Hu. }
    rewrite app_nil_r in Hr. exists h. split; [ exact Hr | ]. split; [ exact Hdt | ]. split; [ rewrite Hcnt; cbn [count fold_right]; lia | ].
    split; [ now rewrite (pickled_says c _ h _ Hr), Hdt | ].
    cbn [reader]. unfold strings, check_byte_vec_dtype, expect_scalar_dtype, size_field_as_usize, as_scalar, usize_try_from, dbind. cbn [ts_char ts_size]. now rewrite Hu.
Qed.
Lemma nothing_many c k bs : run (rreplicate k (read_one c (RdBytes 0 true))) bs = (Ok (repeat (XBytes []) k), bs).
Proof.
  assert (H : run (read_one c (RdBytes 0 true)) bs = (Ok (XBytes []), bs)).
  { cbn [read_one]. unfold read_vec. destruct (N.ltb_spec (isize_max c) 0); [ lia | ]. rewrite run_bind. cbn [read_exact run]. destruct (N.leb_spec 0 (lenN bs)); [ | lia ]. reflexivity. }
  induction k as [ | k IH ]; [ reflexivity | ]. rewrite run_rreplicate_S, H. cbn [then_]. now rewrite IH.
Qed.
(** Empty strings without number. *)
Lemma nothing_file n : n < 2 ^ 64 -> exists file, lenN file <= 128 /\ forall c, exists h, run (into_vec_prog c RVecU8) file = (Ok (h, repeat (XBytes []) (N.to_nat n)), []).
Proof.
  intros Hn. destruct (small_file 0 n ltac:(reflexivity) Hn) as (file & L & H). exists file. split; [ exact L | ]. intros c. destruct (H c (N.le_0_l _)) as (h & Hr & Hd & Hc & Hk & Hrd). exists h.
  unfold into_vec_prog. rewrite run_bind, Hr. cbn [then_]. rewrite Hk, Hd, Hrd, run_bind, nothing_many. cbn [then_ run]. now rewrite Hc.
Qed.
(** One string of any size. *)
Lemma large_file m : m < 2 ^ 64 -> exists file, lenN file <= 128 /\ forall c, m <= isize_max c -> In m (buffers (into_vec_prog c RVecU8) file).
Proof.
  intros Hm. destruct (small_file m 1 Hm ltac:(reflexivity)) as (file & L & H). exists file. split; [ exact L | ]. intros c Hc.
  assert (Hu : m <= c_usize_max c) by (unfold isize_max in Hc; lia). destruct (H c Hu) as (h & Hr & Hd & Hn & Hk & Hrd).
  unfold into_vec_prog. rewrite buffers_bind, Hr, Hk, Hd, Hrd, Hn. apply in_or_app. right. change (N.to_nat 1) with 1%nat. cbn [rreplicate read_one]. unfold read_vec.
  destruct (N.ltb_spec (isize_max c) m); [ lia | ]. now left.
Qed.
