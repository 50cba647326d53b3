(** Writing and reading back, put together. *)
From Verif Require Import M_Base M_Text M_TypeStr M_PyLit M_IO M_Header M_Read M_Serialize M_NpyReader M_Write.
From Verif Require Import S_TypeStr S_DType S_Shape S_Header S_Elem S_Strings S_Reader S_Write
  P_Base P_Text P_TypeStr P_PyLit P_Header P_IO P_Sink P_Shape P_WriteHeader P_Number P_Elem P_ReadOne P_WriteOne P_Codec P_Sizes P_Strings P_Parse P_Default P_ElemT P_Reader P_Array P_Writer P_WriteFile P_Session.
Open Scope N_scope.

Lemma final_count h o n shape : final_shape h o n = Some shape -> count shape = n.
Proof.
  destruct h as [ sh | r | ]; cbn [final_shape].
  - destruct (N.eqb_spec (count sh) n); intros [= <-]. auto.
  - destruct (N.eqb_spec r 0) as [ -> | Hr ]; [ discriminate | ]. cbn [orb]. destruct (N.eqb_spec (n mod r) 0) as [ E | ]; [ | discriminate ]. cbn [negb].
    assert (Hm : n = r * (n / r)) by (pose proof (N.div_mod n r Hr); lia). set (q := n / r) in *. clearbody q. destruct o; intros [= <-]; cbn; lia.
  - intros [= <-]. cbn. lia.
Qed.
Lemma read_back_all c t d vs : accepts (c_usize_max c) Reading t d -> Forall (has_type t) vs -> Forall (survives t d) vs -> map (read_back t d) vs = vs.
Proof.
  intros Ha Hv Hs. induction Hs as [ | v vs Hs Hss IH ]; [ reflexivity | ]. apply Forall_cons_iff in Hv as (Hv & Hvs). cbn [map]. f_equal; [ | auto ].
  eapply read_back_id; eauto.
Qed.

Lemma whole_file c c' t d o h vs s s' : wf_dtype d -> Forall (has_type t) vs -> lenN vs < 2 ^ 64 -> hint_ok h ->
  write_file c t d o h (output_kind h) vs s = (Ok tt, s') ->
  accepts (c_usize_max c') Reading t d -> sizes_fit (c_usize_max c') d -> strings_fit (c_usize_max c') d ->
  exists shape, final_shape h o (lenN vs) = Some shape
  /\ reads_as c' t (sk_data s') (sk_pos s) d o shape (map (read_back t d) vs)
  /\ (Forall (survives t d) vs -> reads_as c' t (sk_data s') (sk_pos s) d o shape vs).
Proof.
  intros Hwf Hvs Hn Hh H Ha Hz Hsf. destruct (write_file_ok c t d o h vs s s' Hwf Hvs Hn Hh H) as (shape & hdr & payload & Hs & He & Hp & _ & Hf).
  assert (Hw : accepts (c_usize_max c) Writing t d).
  { unfold write_file, sbind in H. destruct (begin_ c t d o h (output_kind h) s) as ([ w | e | ], s1) eqn:Eb; try discriminate.
    apply begin_ok_inv in Eb as (_ & dict & pad & hdr' & props & info & tw & _ & _ & _ & Hw & _). apply writer_accepts. eauto. }
  pose proof (file_reads_back c' _ t d o shape vs (sk_pos s) (sk_data s) _ payload (sk_data s') Hwf Hsf Hvs Hw Ha Hz (final_count _ _ _ _ Hs) He Hp Hf) as HR.
  exists shape. split; [ auto | split; [ exact HR | ] ]. intros Hsv. rewrite (read_back_all c' t d vs Ha Hvs Hsv) in HR. exact HR.
Qed.

Lemma all_encodings t d vs : Forall (fun v => exists b, encode t d v = Some b) vs -> exists payload, encodings t d vs payload.
Proof.
  induction 1 as [ | v vs (b & Hb) Hvs (p & Hp) ]; [ exists []; apply encodings_nil | ]. exists (b ++ p). now apply encodings_cons.
Qed.
Lemma writing_succeeds c t d o h vs s : wf_dtype d -> strings_fit (c_usize_max c) d -> top_level d -> accepts (c_usize_max c) Writing t d -> Forall (has_type t) vs ->
  Forall (fun v => exists b, encode t d v = Some b) vs -> lenN vs < 2 ^ 64 -> hint_ok h -> short_header d h -> sk_fuel s = None ->
  exists r s', write_file c t d o h (output_kind h) vs s = (r, s') /\
    match final_shape h o (lenN vs) with
    | Some _ => r = Ok tt
    | None => match h with TwoDimensional 0 => r = Panic | _ => exists e, r = Err e end
    end.
Proof. intros Hwf Hsf Ht Ha Hv He Hn Hh Hs Hf. apply all_encodings in He as (payload & He). eapply write_file_succeeds; eauto. Qed.

(** * The three kinds *)
Lemma fixed_round_trip c c' t d o shape vs s s' : wf_dtype d -> Forall (has_type t) vs -> lenN vs < 2 ^ 64 ->
  Forall (fun n => n < 2 ^ 64) shape -> no_overflow shape ->
  write_file c t d o (NDimensional shape) false vs s = (Ok tt, s') ->
  accepts (c_usize_max c') Reading t d -> sizes_fit (c_usize_max c') d -> strings_fit (c_usize_max c') d ->
  lenN vs = count shape /\ reads_as c' t (sk_data s') (sk_pos s) d o shape (map (read_back t d) vs)
  /\ (Forall (survives t d) vs -> reads_as c' t (sk_data s') (sk_pos s) d o shape vs).
Proof.
  intros Hwf Hvs Hn H64 Hno H Ha Hz Hsf. destruct (whole_file c c' t d o (NDimensional shape) vs s s' Hwf Hvs Hn (conj H64 Hno) H Ha Hz Hsf) as (sh & Hs & H1 & H2).
  pose proof (final_count _ _ _ _ Hs) as Hc. cbn [final_shape] in Hs. destruct (count shape =? lenN vs); [ | discriminate ]. apply Some_inj in Hs as <-. auto.
Qed.
Lemma fixed_succeeds c t d o shape vs s : wf_dtype d -> strings_fit (c_usize_max c) d -> top_level d -> accepts (c_usize_max c) Writing t d -> Forall (has_type t) vs ->
  Forall (fun v => exists b, encode t d v = Some b) vs -> lenN vs < 2 ^ 64 ->
  Forall (fun n => n < 2 ^ 64) shape -> no_overflow shape -> lenN vs = count shape -> short_header d (NDimensional shape) -> sk_fuel s = None ->
  exists s', write_file c t d o (NDimensional shape) false vs s = (Ok tt, s').
Proof.
  intros Hwf Hsf Ht Ha Hv He Hn H64 Hno Hc Hs Hf. destruct (writing_succeeds c t d o (NDimensional shape) vs s Hwf Hsf Ht Ha Hv He Hn (conj H64 Hno) Hs Hf) as (r & s' & E & Hr).
  cbn [final_shape] in Hr. rewrite Hc, N.eqb_refl in Hr. subst r. eauto.
Qed.
Lemma growing_1d_round_trip c c' t d o vs s s' : wf_dtype d -> Forall (has_type t) vs -> lenN vs < 2 ^ 64 ->
  write_file c t d o OneDimensional true vs s = (Ok tt, s') ->
  accepts (c_usize_max c') Reading t d -> sizes_fit (c_usize_max c') d -> strings_fit (c_usize_max c') d ->
  reads_as c' t (sk_data s') (sk_pos s) d o [lenN vs] (map (read_back t d) vs)
  /\ (Forall (survives t d) vs -> reads_as c' t (sk_data s') (sk_pos s) d o [lenN vs] vs).
Proof.
  intros Hwf Hvs Hn H Ha Hz Hsf. destruct (whole_file c c' t d o OneDimensional vs s s' Hwf Hvs Hn I H Ha Hz Hsf) as (sh & Hs & H1 & H2).
  apply Some_inj in Hs as <-. auto.
Qed.
Lemma growing_1d_succeeds c t d o vs s : wf_dtype d -> strings_fit (c_usize_max c) d -> top_level d -> accepts (c_usize_max c) Writing t d -> Forall (has_type t) vs ->
  Forall (fun v => exists b, encode t d v = Some b) vs -> lenN vs < 2 ^ 64 -> short_header d OneDimensional -> sk_fuel s = None ->
  exists s', write_file c t d o OneDimensional true vs s = (Ok tt, s').
Proof.
  intros Hwf Hsf Ht Ha Hv He Hn Hs Hf. destruct (writing_succeeds c t d o OneDimensional vs s Hwf Hsf Ht Ha Hv He Hn I Hs Hf) as (r & s' & E & Hr).
  cbn [final_shape] in Hr. subst r. eauto.
Qed.
Lemma growing_2d_round_trip c c' t d o rl vs s s' : wf_dtype d -> Forall (has_type t) vs -> lenN vs < 2 ^ 64 -> rl < 2 ^ 64 ->
  write_file c t d o (TwoDimensional rl) true vs s = (Ok tt, s') ->
  accepts (c_usize_max c') Reading t d -> sizes_fit (c_usize_max c') d -> strings_fit (c_usize_max c') d ->
  exists rows, lenN vs = rows * rl /\ 0 < rl /\
  let shape := match o with OrderC => [rows; rl] | OrderFortran => [rl; rows] end in
  reads_as c' t (sk_data s') (sk_pos s) d o shape (map (read_back t d) vs)
  /\ (Forall (survives t d) vs -> reads_as c' t (sk_data s') (sk_pos s) d o shape vs).
Proof.
  intros Hwf Hvs Hn Hr H Ha Hz Hsf. destruct (whole_file c c' t d o (TwoDimensional rl) vs s s' Hwf Hvs Hn Hr H Ha Hz Hsf) as (sh & Hs & H1 & H2).
  exists (lenN vs / rl). cbn [final_shape] in Hs. destruct (N.eqb_spec rl 0) as [ -> | H0 ]; [ discriminate | ]. cbn [orb] in Hs.
  destruct (N.eqb_spec (lenN vs mod rl) 0) as [ E | ]; [ | discriminate ]. cbn [negb] in Hs. apply Some_inj in Hs as <-.
  split; [ pose proof (N.div_mod (lenN vs) rl H0); lia | ]. split; [ lia | ]. auto.
Qed.
Lemma growing_2d_result c t d o rl vs s : wf_dtype d -> strings_fit (c_usize_max c) d -> top_level d -> accepts (c_usize_max c) Writing t d -> Forall (has_type t) vs ->
  Forall (fun v => exists b, encode t d v = Some b) vs -> lenN vs < 2 ^ 64 -> 0 < rl < 2 ^ 64 -> short_header d (TwoDimensional rl) -> sk_fuel s = None ->
  exists r s', write_file c t d o (TwoDimensional rl) true vs s = (r, s')
  /\ ((exists rows, lenN vs = rows * rl) -> r = Ok tt) /\ (~ (exists rows, lenN vs = rows * rl) -> exists e, r = Err e).
Proof.
  intros Hwf Hsf Ht Ha Hv He Hn (H0 & Hr) Hs Hf. destruct (writing_succeeds c t d o (TwoDimensional rl) vs s Hwf Hsf Ht Ha Hv He Hn Hr Hs Hf) as (r & s' & E & HR).
  exists r, s'. split; [ auto | ]. cbn [final_shape] in HR. replace (rl =? 0) with false in HR by lia. cbn [orb] in HR. destruct (N.eqb_spec (lenN vs mod rl) 0) as [ Em | Em ]; cbn [negb] in HR.
  - split; [ auto | ]. intros Hx. elim Hx. exists (lenN vs / rl). pose proof (N.div_mod (lenN vs) rl ltac:(lia)). lia.
  - split; [ | intros _; destruct rl; [ lia | exact HR ] ]. intros (rows & Hrows). elim Em. rewrite Hrows. apply N.mod_mul. lia.
Qed.

(** * Zero record length *)
Lemma zero_record_panics c t d o vs s w s1 rs w' s2 : lenN vs < 2 ^ 64 -> begin_2d c t d o 0 s = (Ok w, s1) -> push_each c vs w s1 = (rs, w', s2) ->
  finish w' s2 = (Panic, s2) /\ drop_writer w' s2 = (Panic, s2).
Proof.
  intros Hn Hb Hp. destruct (begin_growing c t d o (TwoDimensional 0) s w s1 I Hb) as (_ & _ & L & pad & props & Hs1).
  destruct (push_each_growing c d o (TwoDimensional 0) s 0 [] w s1 L pad props vs rs w' s2 ltac:(lia) Hs1 Hp) as (payload & Hs2).
  pose proof (finish_state d o (TwoDimensional 0) s (0 + lenN vs) _ _ _ L pad props I ltac:(lia) Hs2) as HF. cbn [final_shape] in HF. change (0 =? 0) with true in HF. cbn [orb] in HF.
  destruct HF as (q & E & _ & H1 & H2). injection E as <-. auto.
Qed.

(** * Failed pushes are counted *)
Lemma pushes_counted c t d o vs s w s1 rs w' s2 s3 : wf_dtype d -> lenN vs < 2 ^ 64 -> begin_1d c t d o s = (Ok w, s1) ->
  push_each c vs w s1 = (rs, w', s2) -> finish w' s2 = (Ok tt, s3) ->
  forall c', (exists n, num_bytes c' d = Some n) ->
  exists h rest, run (read_and_interpret c') (dropN (sk_pos s) (sk_data s3)) = (Ok h, rest) /\ h_shape h = [lenN vs] /\ h_dtype h = d.
Proof.
  intros Hwf Hn Hb Hp Hf c' Hc. destruct (begin_growing c t d o OneDimensional s w s1 I Hb) as (Ht & _ & L & pad & props & Hs1).
  destruct (push_each_growing c d o OneDimensional s 0 [] w s1 L pad props vs rs w' s2 ltac:(lia) Hs1 Hp) as (payload & Hs2). rewrite N.add_0_l in Hs2. cbn [app] in Hs2.
  pose proof (finish_state d o OneDimensional s _ _ _ _ L pad props I Hn Hs2) as HF. cbn [final_shape] in HF.
  destruct HF as (_ & _ & HF). destruct (HF _ _ Hf) as (_ & [ (_ & Hd & _) | (HE & _) ]); [ | discriminate ].
  pose proof (gs_headers _ _ _ _ _ _ _ _ _ _ _ Hs2 (dec (lenN vs)) ltac:(apply dec_length_u64; lia) (dec_ascii _)) as Hh.
  assert (Hpl : placed (sk_data s) (sk_pos s) (L ++ suffix o OneDimensional (dec (lenN vs)) ++ repeatN 32 pad ++ [10] ++ payload) (sk_data s3)) by (rewrite Hd; reflexivity).
  apply placed_rest in Hpl. rewrite Hpl.
  assert (Hw : file_with d o [lenN vs] ((L ++ suffix o OneDimensional (dec (lenN vs)) ++ repeatN 32 pad ++ [10]) ++ payload) payload).
  { apply opens_with; [ now apply no_overflow_1 | ]. intros c1 rest. rewrite <- app_assoc. apply (read_grown c1 d o OneDimensional (lenN vs) _ _ _ Hwf Ht I ltac:(repeat constructor; auto) Hh). }
  match goal with |- context [ run _ ((?x ++ ?y ++ ?z ++ ?u ++ ?v) ++ ?r) ] => replace ((x ++ y ++ z ++ u ++ v) ++ r) with (((x ++ y ++ z ++ u) ++ v) ++ r) by (now rewrite <- !app_assoc); destruct (Hw c' r Hc) as (h & H1 & H2 & H3 & _) end.
  exists h. eexists. split; [ exact H1 | auto ].
Qed.
