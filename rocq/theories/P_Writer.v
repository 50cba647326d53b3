(** Writers: what begin, push and finish do to the output. *)
From Verif Require Import M_Base M_Text M_TypeStr M_PyLit M_IO M_Header M_Read M_Serialize M_Write.
From Verif Require Import S_TypeStr S_DType S_Shape S_Header S_Elem S_Strings S_Write
  P_Base P_Text P_TypeStr P_PyLit P_Header P_IO P_Sink P_Shape P_WriteHeader P_Number P_Elem P_ReadOne P_WriteOne P_Codec P_Sizes P_Strings P_Parse P_ElemT.
Open Scope N_scope.

(** * Effects that write nothing *)
Lemma tick_ok s s' r : sink_tick s = (r, s') -> s' = put s [] (sk_fuel s') /\ ((r = Ok tt /\ sk_fuel s <> Some 0) \/ (r = Err ESink /\ sk_fuel s = Some 0 /\ s' = s)).
Proof.
  unfold sink_tick. rewrite put_nil. destruct s as [ dt p [ n | ] ]; cbn [sk_fuel sk_data sk_pos].
  - destruct (N.eqb_spec n 0) as [ -> | Hn ]; intros [= <- <-]; cbn [sk_fuel sk_data sk_pos]; split; auto.
    left. split; auto. congruence.
  - intros [= <- <-]. cbn [sk_fuel sk_data sk_pos]. split; auto. left. split; auto. discriminate.
Qed.
Lemma tick_none s : sk_fuel s = None -> sink_tick s = (Ok tt, s).
Proof. unfold sink_tick. now intros ->. Qed.

Lemma put_trans s s0 s1 a b : s0 = put s a (sk_fuel s0) -> s1 = put s0 b (sk_fuel s1) -> s1 = put s (a ++ b) (sk_fuel s1).
Proof. intros H0 H1. transitivity (put s0 b (sk_fuel s1)); [ exact H1 | ]. rewrite H0, put_put. reflexivity. Qed.

(** * begin *)
Lemma begin_ok_inv c t d o h sk s w s1 : begin_ c t d o h sk s = (Ok w, s1) ->
  top_level d /\ exists dict pad hdr props info tw, create_dict c d o h = Ok (dict, info) /\ header_of dict hdr props pad /\ header_fits dict
    /\ writer c t d = DOk tw /\ s1 = put s hdr (sk_fuel s1)
    /\ w = {| w_start_pos := if sk then Some (sk_pos s) else None; w_shape_info := info; w_num_items := 0; w_seekable := sk;
              w_writer := tw; w_version_props := props |}.
Proof.
  unfold begin_. intros H. unfold sbind at 1 in H.
  destruct ((if sk then let@ p := sink_tell in sret (Ok (Some p)) else sret (Ok None)) s) as ([ st | e | ], s0) eqn:E; try discriminate.
  assert (Hst : st = (if sk then Some (sk_pos s) else None) /\ s0 = put s [] (sk_fuel s0)).
  { destruct sk.
    - unfold sbind, sink_tell in E. destruct (sink_tick s) as ([ [] | e | ], s') eqn:Et; try discriminate.
      apply tick_ok in Et as (Et & _). unfold sret in E. apply pair_inj in E as (E & <-). apply Ok_inj in E as <-. split; [ | exact Et ].
      rewrite Et, put_nil. reflexivity.
    - unfold sret in E. apply pair_inj in E as (E & <-). apply Ok_inj in E as <-. rewrite put_nil. destruct s; auto. }
  destruct Hst as (-> & Hs0). unfold sbind in H. destruct (write_header c d o h s0) as ([ (info, props) | e | ], s1') eqn:Ew; try discriminate.
  apply write_header_ok_inv in Ew as (Ht & dict & pad & hdr & Hc & Hh & Hf & Hw). split; [ auto | ].
  destruct (writer c t d) as [ tw | e ] eqn:Etw; [ | discriminate ]. unfold sret in H. apply pair_inj in H as (H & ->). apply Ok_inj in H as <-.
  exists dict, pad, hdr, props, info, tw. do 4 (split; [ first [ assumption | reflexivity ] | ]). split; [ | reflexivity ].
  apply sink_write_ok in Hw. exact (put_trans _ _ _ _ _ Hs0 Hw).
Qed.

Lemma begin_ok_intro c t d o h sk s dict info tw : top_level d -> create_dict c d o h = Ok (dict, info) -> header_fits dict ->
  writer c t d = DOk tw -> sk_fuel s = None -> exists w hdr, begin_ c t d o h sk s = (Ok w, put s hdr None).
Proof.
  intros Ht Hc Hf Hw Hn. unfold begin_.
  assert (E : (if sk then let@ p := sink_tell in sret (Ok (Some p)) else sret (Ok None)) s = (Ok (if sk then Some (sk_pos s) else None), s)).
  { destruct sk; [ | reflexivity ]. unfold sbind, sink_tell. rewrite tick_none by auto. reflexivity. }
  unfold sbind at 1. rewrite E. unfold sbind.
  destruct (write_header_full c d o h dict info Ht Hc) as (pad & props & hdr & version & _ & _ & _ & Hok & _).
  rewrite (Hok Hf). unfold sbind. rewrite (sink_write_none s hdr Hn). cbn [sret]. rewrite Hw. eexists _, hdr. reflexivity.
Qed.

(** * push and extend *)
Definition with_count (w : npy_writer) (n : N) : npy_writer :=
  {| w_start_pos := w_start_pos w; w_shape_info := w_shape_info w; w_num_items := n;
     w_seekable := w_seekable w; w_writer := w_writer w; w_version_props := w_version_props w |}.
Lemma with_count_id w : with_count w (w_num_items w) = w.
Proof. destruct w; reflexivity. Qed.
Lemma u64_add_small c a b : a + b < 2 ^ 64 -> u64_add c a b = Ok (a + b).
Proof. intros H. unfold u64_add. replace (a + b <? 2 ^ 64) with true by lia. reflexivity. Qed.

Lemma push_eq c v w s : w_num_items w + 1 < 2 ^ 64 ->
  push c v w s = let '(bs, r) := write_one c (w_writer w) v in
                 let '(r', s') := (let@ _u := sink_write bs in sret r) s in (r', with_count w (w_num_items w + 1), s').
Proof. intros H. unfold push. rewrite u64_add_small by auto. reflexivity. Qed.

Lemma encodings_nil t d : encodings t d [] [].
Proof. exists []. split; [ constructor | reflexivity ]. Qed.
Lemma encodings_cons t d v vs b bs : encode t d v = Some b -> encodings t d vs bs -> encodings t d (v :: vs) (b ++ bs).
Proof. intros H (bl & H1 & ->). exists (b :: bl). split; [ now constructor | reflexivity ]. Qed.
Lemma encodings_inv t d v vs x : encodings t d (v :: vs) x -> exists b bs, encode t d v = Some b /\ encodings t d vs bs /\ x = b ++ bs.
Proof. intros (bl & H & ->). inversion H as [ | ? b ? bl' Hb Hl ]; subst. exists b, (List.concat bl'). split; auto. split; auto. now exists bl'. Qed.
Lemma encodings_fun t d vs : forall x y, encodings t d vs x -> encodings t d vs y -> x = y.
Proof.
  induction vs as [ | v vs IH ]; intros x y Hx Hy.
  - destruct Hx as (bl & H & ->). destruct Hy as (bl' & H' & ->). inversion H; inversion H'; subst. reflexivity.
  - apply encodings_inv in Hx as (b & bs & E & Hb & ->). apply encodings_inv in Hy as (b' & bs' & E' & Hb' & ->).
    rewrite E in E'. injection E' as <-. f_equal. now apply IH.
Qed.

Lemma extend_ok_inv c t d vs : wf_dtype d -> Forall (has_type t) vs -> forall w s w' s', writer c t d = DOk (w_writer w) ->
  w_num_items w + lenN vs < 2 ^ 64 -> extend c vs w s = (Ok tt, w', s') ->
  exists payload, encodings t d vs payload /\ s' = put s payload (sk_fuel s') /\ w' = with_count w (w_num_items w + lenN vs).
Proof.
  intros Hwf Hvs. induction Hvs as [ | v vs Hv Hvs IH ]; intros w s w' s' Hw Hn H.
  - cbn [extend] in H. apply pair_inj in H as (H & <-). apply pair_inj in H as (_ & <-). exists []. split; [ apply encodings_nil | ].
    rewrite put_nil, lenN_nil, N.add_0_r, with_count_id. split; [ destruct s; reflexivity | reflexivity ].
  - rewrite lenN_cons in Hn. cbn [extend] in H. rewrite push_eq in H by lia.
    destruct (write_one c (w_writer w) v) as (bs, r) eqn:E. unfold sbind in H.
    destruct (sink_write bs s) as ([ [] | e | ], s1) eqn:Es; try discriminate. unfold sret in H.
    destruct r as [ [] | e | ]; try discriminate. apply (write_encode c t d) in E; auto.
    destruct (IH _ _ _ _ (Hw : writer c t d = DOk (w_writer (with_count w (w_num_items w + 1)))) ltac:(cbn [w_num_items with_count]; lia) H) as (p & Hp & Hs & ->).
    exists (bs ++ p). split; [ now apply encodings_cons | ]. split.
    + apply sink_write_ok in Es. exact (put_trans _ _ _ _ _ Es Hs).
    + cbn [w_num_items with_count]. rewrite lenN_cons, N.add_assoc. reflexivity.
Qed.

Lemma extend_ok_intro c t d vs : wf_dtype d -> strings_fit (c_usize_max c) d -> Forall (has_type t) vs -> forall w s payload, writer c t d = DOk (w_writer w) ->
  w_num_items w + lenN vs < 2 ^ 64 -> encodings t d vs payload -> sk_fuel s = None ->
  extend c vs w s = (Ok tt, with_count w (w_num_items w + lenN vs), put s payload None).
Proof.
  intros Hwf Hfit Hvs. induction Hvs as [ | v vs Hv Hvs IH ]; intros w s x Hw Hn Hx Hf.
  - destruct Hx as (bl & H & ->). inversion H; subst. cbn [extend List.concat]. rewrite lenN_nil, N.add_0_r, with_count_id, put_nil, <- Hf. now destruct s.
  - apply encodings_inv in Hx as (b & bs & E & Hb & ->). rewrite lenN_cons in Hn. cbn [extend]. rewrite push_eq by lia.
    apply (write_exact c t d _ v b Hwf Hfit Hw Hv) in E. rewrite E. unfold sbind. rewrite (sink_write_none s b Hf). unfold sret.
    rewrite (IH (with_count w (w_num_items w + 1)) (put s b None) bs); auto; [ | cbn [w_num_items with_count]; lia ].
    rewrite put_put. cbn [w_num_items with_count]. rewrite lenN_cons, N.add_assoc. reflexivity.
Qed.

(** * The text of growing headers *)
Definition growing (h : shape_hint) : Prop := match h with NDimensional _ => False | _ => True end.
Definition suffix (o : order) (h : shape_hint) (axis : text) : bytes :=
  match h with
  | OneDimensional => axis ++ lit ",), }"
  | TwoDimensional r =>
    match o with
    | OrderC => axis ++ lit ", " ++ dec r ++ lit "), }"
    | OrderFortran => dec r ++ lit ", " ++ axis ++ lit "), }"
    end
  | NDimensional _ => []
  end ++ repeatN 32 (20 - lenN axis).
Definition info_of (d : dtype) (o : order) (h : shape_hint) : shape_info :=
  match h with
  | OneDimensional => Automatic1D (lenN (dict_prefix d o))
  | TwoDimensional r => Automatic2D (lenN (dict_prefix d o)) r o
  | NDimensional _ => Known 0
  end.
(** The number that is only known at the end. *)
Definition variable_axis (h : shape_hint) (n : N) : N := match h with TwoDimensional r => n / r | _ => n end.

Lemma suffix_1d axis o : lenN axis <= 20 -> shape_suffix_1d axis = Ok (suffix o OneDimensional axis).
Proof.
  intros H. unfold shape_suffix_1d, filler_space_padding, filler_len. replace (lenN axis <=? 20) with true by lia. cbn [bind].
  unfold suffix. now rewrite <- app_assoc.
Qed.
Lemma suffix_2d o r axis : lenN axis <= 20 -> shape_suffix_2d o r axis = Ok (suffix o (TwoDimensional r) axis).
Proof.
  intros H. unfold shape_suffix_2d, filler_space_padding, filler_len. replace (lenN axis <=? 20) with true by lia. reflexivity.
Qed.
Lemma create_growing c d o h : growing h -> create_dict c d o h = Ok (dict_prefix d o ++ suffix o h filler, info_of d o h).
Proof.
  destruct h as [ sh | r | ]; [ destruct 1 | | ]; intros _; cbn [create_dict info_of].
  - rewrite suffix_2d by (change (lenN filler) with 20; lia). reflexivity.
  - rewrite (suffix_1d filler o) by (change (lenN filler) with 20; lia). reflexivity.
Qed.
Lemma suffix_len o h axis : lenN axis <= 20 -> growing h ->
  lenN (suffix o h axis) = 20 + match h with TwoDimensional r => 6 + lenN (dec r) | _ => 5 end.
Proof.
  intros H. destruct h as [ sh | r | ]; [ destruct 1 | | ]; intros _; unfold suffix; rewrite lenN_app, lenN_repeatN.
  - destruct o; rewrite !lenN_app; change (lenN (lit ", ")) with 2; change (lenN (lit "), }")) with 4; lia.
  - rewrite lenN_app. change (lenN (lit ",), }")) with 5. lia.
Qed.
Lemma suffix_ascii o h axis : ascii_text axis -> ascii_text (suffix o h axis).
Proof.
  intros H. unfold suffix. apply ascii_app; [ | apply Forall_repeatN; lia ].
  destruct h as [ sh | r | ]; [ constructor | destruct o | ]; repeat apply ascii_app; auto; try apply dec_ascii; plain_lit.
Qed.
Lemma ascii_is_ascii b : ascii_text b -> is_ascii b = true.
Proof.
  intros H. unfold is_ascii. apply negb_true_iff, not_true_is_false. rewrite existsb_exists. intros (x & Hx & Hb).
  unfold ascii_text in H. rewrite Forall_forall in H. apply H in Hx. lia.
Qed.

(** Replacing part of the dictionary by a text of the same length. *)
Lemma header_swap a b b' hdr props pad : header_of (a ++ b) hdr props pad -> lenN b' = lenN b -> ascii_text b -> ascii_text b' ->
  exists L, hdr = L ++ b ++ repeatN 32 pad ++ [10] /\ lenN L = bytes_before_text props + lenN a
  /\ header_of (a ++ b') (L ++ b' ++ repeatN 32 pad ++ [10]) props pad.
Proof.
  intros [ version -> Hpad Hm Hgv Hv Hp Hl ] Hlen Hb Hb'.
  assert (El : lenN ((a ++ b') ++ repeatN 32 pad ++ [10]) = lenN ((a ++ b) ++ repeatN 32 pad ++ [10])) by (rewrite !lenN_app; lia).
  assert (Ed : lenN (a ++ b') = lenN (a ++ b)) by (rewrite !lenN_app; lia).
  assert (Ea : is_ascii (a ++ b') = is_ascii (a ++ b)) by (rewrite !is_ascii_app, (ascii_is_ascii b), (ascii_is_ascii b') by auto; reflexivity).
  exists (magic ++ [fst version; snd version] ++ len_field props (lenN ((a ++ b) ++ repeatN 32 pad ++ [10])) ++ a).
  split; [ unfold preamble; app_norm; reflexivity | ]. split.
  { rewrite bytes_before_eq. unfold len_field. rewrite !lenN_app, le_bytes_length, !lenN_cons, lenN_nil.
    change (lenN magic) with 6. destruct (vp_u32 props); lia. }
  exists version; rewrite ?Ea, ?Ed, ?El; auto. unfold preamble. rewrite El. app_norm. reflexivity.
Qed.

(** Reading any header of this form. *)
Lemma read_header_of c dict hdr props pad : header_of dict hdr props pad ->
  forall rest, run (read_and_interpret c) (hdr ++ rest) = (let* v := parse_header_text (dict ++ repeatN 32 pad ++ [10]) in interpret_header c v, rest).
Proof.
  intros [ version -> Hpad Hm Hgv Hv Hp Hl ] rest. unfold read_and_interpret. rewrite run_bind, read_preamble; auto.
  - destruct (parse_header_text _) as [ v | e | ]; cbn [then_ bind]; auto. apply run_lift.
  - rewrite Hv. destruct (negb _); [ | destruct (safe_u16_cutoff <=? _) ]; reflexivity.
  - rewrite Hv. destruct (negb _); [ | destruct (safe_u16_cutoff <=? _) ]; reflexivity.
Qed.

(** Parsing a tuple that starts with a number, whatever follows. *)
Lemma tuple_forward n X F : no_digit X -> p_value (S (S F)) (40 :: dec n ++ X) =
  match skip_ws X with
  | c3 :: r3 => if c3 =? 44 then match p_items (S F) 41 (skip_ws r3) with
                                 | Some (vs, r4) => Some (VTuple (VInteger (Z.of_N n) :: vs), r4)
                                 | None => None
                                 end else None
  | [] => None
  end.
Proof.
  intros HX. pose proof (p_value_dec n X F HX) as P. pose proof (skip_ws_starter (dec n) X (dec_starter n)) as Hs.
  destruct (dec_head_digit n) as (c & r & E & Hc). rewrite E in *. cbn [app] in *.
  remember (S F) as G. cbn [p_value].
  change (40 =? 39) with false. change (40 =? 34) with false. change (40 =? chr "u") with false. change (40 =? chr "U") with false.
  change (is_digit 40) with false. change (40 =? chr "+") with false. change (40 =? chr "-") with false. change (40 =? chr "(") with true. cbn [orb].
  rewrite Hs. replace (c =? chr ")") with false by (unfold is_digit in Hc; cbn; lia). rewrite P. reflexivity.
Qed.
Lemma items_forward n X F : no_digit X -> p_items (S (S F)) 41 (dec n ++ X) =
  match skip_ws X with
  | [] => None
  | c2 :: r2 => if c2 =? 41 then Some ([VInteger (Z.of_N n)], r2)
                else if c2 =? 44 then match p_items (S F) 41 (skip_ws r2) with
                                      | Some (vs, r3) => Some (VInteger (Z.of_N n) :: vs, r3)
                                      | None => None
                                      end
                else None
  end.
Proof.
  intros HX. pose proof (p_value_dec n X F HX) as P. destruct (dec_head_digit n) as (c & r & E & Hc). rewrite E in *. cbn [app] in *.
  remember (S F) as G. cbn [p_items]. replace (c =? 41) with false by (unfold is_digit in Hc; lia). rewrite P. reflexivity.
Qed.

(** The tuple in the finished header. *)
Lemma tuple1_prints a : prints (40 :: dec a ++ [44; 41]) (VTuple [VInteger (Z.of_N a)]).
Proof.
  intros rest f _ Hf. cbn [List.length] in Hf. rewrite app_length in Hf. cbn [List.length] in Hf.
  destruct f as [ | [ | f ] ]; [ lia | lia | ].
  replace ((40 :: dec a ++ [44; 41]) ++ rest) with (40 :: dec a ++ 44 :: 41 :: rest) by (app_norm; reflexivity).
  rewrite tuple_forward by (cbn; split; [ reflexivity | lia ]). reflexivity.
Qed.
Lemma tuple2_prints a b : prints (40 :: dec a ++ lit ", " ++ dec b ++ [41]) (VTuple [VInteger (Z.of_N a); VInteger (Z.of_N b)]).
Proof.
  intros rest f _ Hf. cbn [List.length] in Hf. rewrite !app_length in Hf. cbn [List.length lit] in Hf.
  pose proof (dec_nonempty a). destruct (dec a) eqn:Ea; [ congruence | ]. cbn [List.length] in Hf. rewrite <- Ea in *.
  destruct f as [ | [ | [ | f ] ] ]; [ lia | lia | lia | ].
  replace ((40 :: dec a ++ lit ", " ++ dec b ++ [41]) ++ rest) with (40 :: dec a ++ 44 :: 32 :: dec b ++ 41 :: rest) by (app_norm; reflexivity).
  rewrite tuple_forward by (cbn; split; [ reflexivity | lia ]). cbn [skip_ws]. change (is_blank 44) with false. cbv iota. change (44 =? 44) with true. cbv iota.
  rewrite skip_ws_space, skip_ws_starter by apply dec_starter. rewrite items_forward by (cbn; split; [ reflexivity | lia ]). reflexivity.
Qed.

Definition tuple_text (o : order) (h : shape_hint) (n : N) : text :=
  40 :: match h with
        | TwoDimensional r => match o with OrderC => dec n ++ lit ", " ++ dec r | OrderFortran => dec r ++ lit ", " ++ dec n end
        | _ => dec n ++ [44]
        end ++ [41].
Definition shape_with (o : order) (h : shape_hint) (n : N) : list N :=
  match h with TwoDimensional r => match o with OrderC => [n; r] | OrderFortran => [r; n] end | _ => [n] end.
Lemma tuple_text_prints o h n : growing h -> prints (tuple_text o h n) (VTuple (map (fun n => VInteger (Z.of_N n)) (shape_with o h n))).
Proof.
  unfold tuple_text, shape_with. destruct h as [ sh | r | ]; [ destruct 1 | | ]; intros _; [ destruct o | ]; rewrite <- ?app_assoc.
  - apply tuple2_prints.
  - apply tuple2_prints.
  - apply tuple1_prints.
Qed.
Lemma suffix_tuple d o h n : growing h ->
  dict_prefix d o ++ suffix o h (dec n) = utf8 (dict_text d o (tuple_text o h n)) ++ repeatN 32 (20 - lenN (dec n)).
Proof.
  intros Hg. unfold tuple_text. rewrite dict_bytes.
  - unfold suffix. rewrite <- !app_assoc. f_equal. destruct h as [ sh | r | ]; [ destruct Hg | | ]; [ destruct o | ]; app_norm; reflexivity.
  - destruct h as [ sh | r | ]; [ destruct Hg | | ]; [ destruct o | ]; repeat apply ascii_app; try apply dec_ascii; plain_lit.
Qed.
Lemma tuple_text_ascii o h n : ascii_text (tuple_text o h n).
Proof.
  unfold tuple_text. constructor; [ lia | ]. apply ascii_app; [ | plain_lit ].
  destruct h as [ sh | r | ]; [ | destruct o | ]; repeat apply ascii_app; try apply dec_ascii; plain_lit.
Qed.

Lemma read_grown c d o h n hdr props pad : wf_dtype d -> top_level d -> growing h -> Forall (fun n => n < 2 ^ 64) (shape_with o h n) ->
  header_of (dict_prefix d o ++ suffix o h (dec n)) hdr props pad ->
  forall rest, run (read_and_interpret c) (hdr ++ rest) = (from_parts c d (shape_with o h n) o, rest).
Proof.
  intros Hw Ht Hg Hs Hh rest. rewrite (read_header_of c _ _ _ _ Hh). f_equal. rewrite suffix_tuple by auto. rewrite <- app_assoc, (app_assoc (repeatN 32 _)), <- repeatN_add.
  assert (Hst : starter (tuple_text o h n)) by (cbn; repeat split; discriminate).
  destruct (dict_text_prints d o _ _ Ht Hst (tuple_text_prints o h n Hg)) as (Hst' & Hpr).
  rewrite (parse_padded _ _ _ (dict_text_scalars d o _ Hw Ht (tuple_text_ascii o h n)) Hst' Hpr). cbn [bind]. now rewrite interpret_dict.
Qed.

(** * finish *)
Definition finishing (w : npy_writer) (off : N) (bs : bytes) : sink -> res unit * sink :=
  let@ _u := patch w off (Ok bs) in sink_flush.

Definition not_divisible (n r : N) : err := EData (dec n ++ lit " item(s) is not divisible by " ++ dec r ++ lit "!").
Definition wrong_count (e n : N) : err := EData (lit "shape has " ++ dec e ++ lit " item(s), but " ++ dec n ++ lit " item(s) were written!").
Lemma finish_growing d o h w n : growing h -> w_shape_info w = info_of d o h -> w_num_items w = n -> n < 2 ^ 64 ->
  match final_shape h o n with
  | Some shape => (forall s, finish_ w s = finishing w (lenN (dict_prefix d o)) (suffix o h (dec (variable_axis h n))) s)
                  /\ shape = shape_with o h (variable_axis h n) /\ variable_axis h n <= n
  | None => exists r, h = TwoDimensional r /\ forall s, finish_ w s = (if r =? 0 then Panic else Err (not_divisible (w_num_items w) r), s)
  end.
Proof.
  intros Hg Hi <- Hn. unfold final_shape. destruct h as [ sh | r | ]; [ destruct Hg | | ]; cbn [info_of] in Hi.
  - destruct (N.eqb_spec r 0) as [ -> | Hr ]; cbn [orb].
    + exists 0. split; auto. intros s. unfold finish_. rewrite Hi. reflexivity.
    + destruct (w_num_items w mod r =? 0) eqn:E; cbn [negb].
      * cbn [variable_axis shape_with]. assert (Hle : w_num_items w / r <= w_num_items w) by (apply N.div_le_upper_bound; nia).
        split; [ | split; [ destruct o; reflexivity | exact Hle ] ]. intros s. unfold finish_. rewrite Hi. replace (r =? 0) with false by lia. rewrite E. cbn [negb].
        rewrite suffix_2d by (apply dec_length_u64; lia). reflexivity.
      * exists r. split; auto. intros s. unfold finish_. rewrite Hi. replace (r =? 0) with false by lia. rewrite E. cbn [negb]. reflexivity.
  - cbn [variable_axis shape_with]. split; [ | split; [ reflexivity | lia ] ]. intros s. unfold finish_. rewrite Hi. rewrite (suffix_1d _ o) by (apply dec_length_u64; lia). reflexivity.
Qed.

(** All that finalising can do to a growing file's output: overwrite with a prefix of the text. *)
Lemma finishing_any w off bs p0 s r s' : w_seekable w = true -> w_start_pos w = Some p0 -> finishing w off bs s = (r, s') ->
  let P := p0 + bytes_before_text (w_version_props w) + off in
  P + lenN bs <= lenN (sk_data s) -> bs <> [] ->
  (r = Ok tt /\ s' = {| sk_data := overwrite (sk_data s) P bs; sk_pos := sk_pos s; sk_fuel := sk_fuel s' |} /\ (sk_fuel s = None -> sk_fuel s' = None))
  \/ (r = Err ESink /\ sk_fuel s' = Some 0 /\ (exists n, sk_fuel s = Some n) /\ exists k, k <= lenN bs /\ sk_data s' = overwrite (sk_data s) P (takeN k bs)
      /\ (sk_fuel s = Some 0 -> s' = s)).
Proof.
  intros Hk Hp H P HP Hb. unfold finishing, patch in H. rewrite Hp in H. fold P in H. clearbody P. unfold ms_tell, ms_seek in H. rewrite Hk in H.
  assert (Hnop : forall D, P + lenN bs <= lenN D -> overwrite D P [] = D).
  { intros D HD. unfold overwrite. change (lenN (@nil N)) with 0. replace (P + 0) with P by lia. replace (P - lenN D) with 0 by lia. rewrite repeatN_0. cbn [app]. apply takeN_dropN. }
  assert (Hput : forall D p f k, sk_data (put {| sk_data := D; sk_pos := P; sk_fuel := f |} (takeN k bs) p) = overwrite D P (takeN k bs) \/ lenN D < P + lenN bs).
  { intros D p f k. destruct (N.le_gt_cases (P + lenN bs) (lenN D)) as [ HD | HD ]; [ left | now right ].
    unfold put. cbn [sk_data sk_pos]. destruct (takeN k bs); auto. now rewrite Hnop. }
  assert (Hm : forall A (x y : A), match bs with [] => x | _ :: _ => y end = y) by (intros; destruct bs; [ congruence | reflexivity ]).
  unfold sbind, sink_tell, sink_seek, sink_flush, sret in H. destruct s as [ D p f ]. cbn [sk_data sk_pos sk_fuel] in *.
  destruct f as [ n | ].
  -
    unfold sink_tick in H. cbn [sk_data sk_pos sk_fuel] in H.
    destruct (N.eqb_spec n 0) as [ -> | Hn ].
    { injection H as <- <-. right. cbn [sk_fuel sk_data]. split; auto. split; auto. split; [ eauto | ]. exists 0. rewrite takeN_0, Hnop by auto. split; [ lia | auto ]. }
    cbn [sk_data sk_pos sk_fuel] in H. destruct (N.eqb_spec (n - 1) 0) as [ E1 | Hn1 ].
    { injection H as <- <-. right. cbn [sk_fuel sk_data]. split; auto. split; [ now rewrite E1 | ]. split; [ eauto | ]. exists 0. rewrite takeN_0, Hnop by auto.
      split; [ lia | split; [ auto | ] ]. intros [= ->]. lia. }
    cbn [sk_data sk_pos sk_fuel] in H. rewrite (sink_write_some {| sk_data := D; sk_pos := P; sk_fuel := Some (n - 1 - 1) |} bs (n - 1 - 1) eq_refl) in H.
    destruct (N.leb_spec (lenN bs) (n - 1 - 1)).
    + unfold put in H. cbn [sk_data sk_pos sk_fuel] in H. rewrite Hm in H.
      destruct (N.eqb_spec (n - 1 - 1 - lenN bs) 0) as [ E2 | Hn2 ].
      { injection H as <- <-. right. cbn [sk_fuel sk_data]. split; auto. split; [ now rewrite E2 | ]. split; [ eauto | ]. exists (lenN bs).
        rewrite takeN_all by lia. split; [ lia | split; [ auto | ] ]. intros [= ->]. lia. }
      cbn [sk_data sk_pos sk_fuel] in H. destruct (N.eqb_spec (n - 1 - 1 - lenN bs - 1) 0) as [ E3 | Hn3 ]; injection H as <- <-; cbn [sk_fuel sk_data sk_pos].
      * right. split; auto. split; [ now rewrite E3 | ]. split; [ eauto | ]. exists (lenN bs).
        rewrite takeN_all by lia. split; [ lia | split; [ auto | ] ]. intros [= ->]. lia.
      * left. split; auto. split; auto. discriminate.
    + injection H as <- <-. right. split; auto. split; [ reflexivity | ]. split; [ eauto | ]. exists (n - 1 - 1). split; [ lia | ].
      split; [ | intros [= ->]; lia ]. destruct (Hput D (Some 0) (Some (n - 1 - 1)) (n - 1 - 1)); [ auto | lia ].
  - left. unfold sink_tick in H. cbn [sk_data sk_pos sk_fuel] in H. rewrite (sink_write_none {| sk_data := D; sk_pos := P; sk_fuel := None |} bs eq_refl) in H. unfold put in H.
    cbn [sk_data sk_pos sk_fuel] in H. rewrite Hm in H.
    injection H as <- <-. cbn. auto.
Qed.

(** * Overwriting inside what was written *)
Lemma overwrite_empty D p : p <= lenN D -> overwrite D p [] = D.
Proof.
  intros H. unfold overwrite. change (lenN (@nil N)) with 0. replace (p + 0) with p by lia. replace (p - lenN D) with 0 by lia.
  rewrite repeatN_0. cbn [app]. apply takeN_dropN.
Qed.
Lemma overwrite_split D p x : overwrite D p x = (takeN p D ++ repeatN 0 (p - lenN D)) ++ x ++ dropN (p + lenN x) D
  /\ lenN (takeN p D ++ repeatN 0 (p - lenN D)) = p.
Proof. split; [ unfold overwrite; now rewrite <- app_assoc | rewrite lenN_app, lenN_takeN, lenN_repeatN; lia ]. Qed.
Lemma overwrite_inside A x B y : lenN y = lenN x -> overwrite (A ++ x ++ B) (lenN A) y = A ++ y ++ B.
Proof.
  intros H. unfold overwrite. rewrite takeN_app by auto. rewrite !lenN_app. replace (lenN A - _) with 0 by lia. rewrite repeatN_0. cbn [app].
  f_equal. f_equal. rewrite app_assoc. apply dropN_app. rewrite lenN_app. lia.
Qed.
Lemma overwrite_mid D p L x R y : lenN y = lenN x ->
  overwrite (overwrite D p (L ++ x ++ R)) (p + lenN L) y = overwrite D p (L ++ y ++ R).
Proof.
  intros H. destruct (overwrite_split D p (L ++ x ++ R)) as (-> & Hl). destruct (overwrite_split D p (L ++ y ++ R)) as (-> & _).
  set (A := takeN p D ++ repeatN 0 (p - lenN D)) in *.
  replace (lenN (L ++ y ++ R)) with (lenN (L ++ x ++ R)) by (rewrite !lenN_app; lia).
  set (B := dropN _ D).
  replace (A ++ (L ++ x ++ R) ++ B) with ((A ++ L) ++ x ++ (R ++ B)) by (app_norm; reflexivity).
  replace (p + lenN L) with (lenN (A ++ L)) by (rewrite lenN_app; lia). rewrite overwrite_inside by auto. app_norm. reflexivity.
Qed.
Lemma put_nonempty s x f : x <> [] -> sk_data (put s x f) = overwrite (sk_data s) (sk_pos s) x.
Proof. intros H. unfold put. cbn [sk_data]. destruct x; [ congruence | reflexivity ]. Qed.

(** * A growing file after its pushes *)
Record growing_state (d : dtype) (o : order) (h : shape_hint) (s0 : sink) (n : N) (payload : bytes) (w : npy_writer) (s : sink)
  (L : bytes) (pad : N) (props : version_props) : Prop := {
  gs_seekable : w_seekable w = true;
  gs_start : w_start_pos w = Some (sk_pos s0);
  gs_info : w_shape_info w = info_of d o h;
  gs_count : w_num_items w = n;
  gs_props : w_version_props w = props;
  gs_len : lenN L = bytes_before_text props + lenN (dict_prefix d o);
  gs_headers : forall axis, lenN axis <= 20 -> ascii_text axis ->
    header_of (dict_prefix d o ++ suffix o h axis) (L ++ suffix o h axis ++ repeatN 32 pad ++ [10]) props pad;
  gs_data : sk_data s = overwrite (sk_data s0) (sk_pos s0) (L ++ suffix o h filler ++ repeatN 32 pad ++ [10] ++ payload);
  gs_pos : sk_pos s = sk_pos s0 + lenN (L ++ suffix o h filler ++ repeatN 32 pad ++ [10] ++ payload)
}.

Lemma filler_ok : lenN filler <= 20 /\ ascii_text filler.
Proof. split; [ vm_compute; discriminate | plain_lit ]. Qed.

Lemma begin_growing c t d o h s w s1 : growing h -> begin_ c t d o h true s = (Ok w, s1) ->
  top_level d /\ writer c t d = DOk (w_writer w) /\ exists L pad props, growing_state d o h s 0 [] w s1 L pad props.
Proof.
  intros Hg H. apply begin_ok_inv in H as (Ht & dict & pad & hdr & props & info & tw & Hc & Hh & _ & Hw & Hs & ->).
  split; [ auto | split; [ auto | ] ]. rewrite create_growing in Hc by auto. apply Ok_inj, pair_inj in Hc as (<- & <-).
  destruct filler_ok as (Hf1 & Hf2). pose proof (suffix_ascii o h filler Hf2) as Hsa.
  destruct (header_swap _ _ (suffix o h filler) _ _ _ Hh eq_refl Hsa Hsa) as (L & E & HL & _).
  exists L, pad, props. constructor; cbn; auto.
  - intros axis Ha1 Ha2. destruct (header_swap _ _ (suffix o h axis) _ _ _ Hh) as (L' & E' & HL' & Hh'); auto using suffix_ascii.
    { now rewrite !suffix_len. }
    replace L with L'; auto. rewrite E in E'. apply app_inj_lenN in E' as (-> & _); [ auto | lia ].
  - rewrite Hs, put_nonempty, E; [ reflexivity | ]. intros ->. destruct L as [ | ? ? ]; [ | discriminate ].
    rewrite lenN_nil in HL. rewrite bytes_before_eq in HL. destruct (vp_u32 props); lia.
  - rewrite Hs, E. reflexivity.
Qed.

Lemma extend_growing c t d o h s0 n payload w s L pad props vs w' s' : wf_dtype d -> Forall (has_type t) vs ->
  writer c t d = DOk (w_writer w) -> n + lenN vs < 2 ^ 64 ->
  growing_state d o h s0 n payload w s L pad props -> extend c vs w s = (Ok tt, w', s') ->
  exists more, encodings t d vs more /\ growing_state d o h s0 (n + lenN vs) (payload ++ more) w' s' L pad props /\ writer c t d = DOk (w_writer w').
Proof.
  intros Hwf Hvs Hw Hn [ G1 G2 G3 G4 G5 G6 G7 G8 G9 ] H. subst n.
  apply (extend_ok_inv c t d vs Hwf Hvs w s w' s' Hw Hn) in H as (more & He & Hs & ->).
  exists more. split; [ auto | split; [ | exact Hw ] ]. constructor; cbn [with_count w_seekable w_start_pos w_shape_info w_num_items w_version_props]; auto.
  - rewrite Hs. unfold put. cbn [sk_data]. rewrite G8, G9.
    replace (match more with [] => _ | _ :: _ => _ end) with (overwrite (overwrite (sk_data s0) (sk_pos s0) (L ++ suffix o h filler ++ repeatN 32 pad ++ [10] ++ payload))
       (sk_pos s0 + lenN (L ++ suffix o h filler ++ repeatN 32 pad ++ [10] ++ payload)) more).
    + rewrite <- overwrite_app. f_equal. app_norm. reflexivity.
    + destruct more; [ | reflexivity ]. apply overwrite_empty. rewrite overwrite_length. lia.
  - rewrite Hs. cbn [put sk_pos]. rewrite G9. rewrite !lenN_app. lia.
Qed.

Lemma overwrite_prefix D p L x y R k : lenN y = lenN x -> k <= lenN y ->
  overwrite (overwrite D p (L ++ x ++ R)) (p + lenN L) (takeN k y) = overwrite D p (L ++ takeN k y ++ dropN k x ++ R).
Proof.
  intros H Hk. rewrite <- (takeN_dropN k x) at 1. rewrite <- app_assoc. rewrite overwrite_mid; [ reflexivity | ]. rewrite !lenN_takeN. lia.
Qed.
Lemma suffix_nonempty o h axis : growing h -> suffix o h axis <> [].
Proof.
  intros Hg E. apply (f_equal lenN) in E. unfold suffix in E. rewrite lenN_app, lenN_nil in E.
  destruct h as [ sh | r | ]; [ destruct Hg | destruct o | ]; rewrite !lenN_app in E; change (lenN (lit "), }")) with 4 in E; change (lenN (lit ",), }")) with 5 in E; lia.
Qed.

Lemma finish_state d o h s0 n payload w s L pad props : growing h -> n < 2 ^ 64 -> growing_state d o h s0 n payload w s L pad props ->
  match final_shape h o n with
  | None => exists r, h = TwoDimensional r /\ finish_ w s = (if r =? 0 then Panic else Err (not_divisible (w_num_items w) r), s)
            /\ finish w s = (if r =? 0 then Panic else Err (not_divisible (w_num_items w) r), s)
            /\ drop_writer w s = (if r =? 0 then Panic else Ok tt, s)
  | Some shape =>
    let new := suffix o h (dec (variable_axis h n)) in
    let old := suffix o h filler in
    shape = shape_with o h (variable_axis h n) /\ variable_axis h n <= n /\
    forall r s', finish w s = (r, s') ->
    (fst (finish_ w s) = r /\ sk_data (snd (finish_ w s)) = sk_data s') /\
    ((r = Ok tt /\ sk_data s' = overwrite (sk_data s0) (sk_pos s0) (L ++ new ++ repeatN 32 pad ++ [10] ++ payload)
        /\ (sk_fuel s = None -> sk_pos s' = sk_pos s /\ sk_fuel s' = None /\ finish_ w s = (r, s')))
     \/ (r = Err ESink /\ (exists m, sk_fuel s = Some m) /\ (sk_fuel s = Some 0 -> s' = s)
        /\ exists k, k <= lenN new /\ sk_data s' = overwrite (sk_data s0) (sk_pos s0) (L ++ takeN k new ++ dropN k old ++ repeatN 32 pad ++ [10] ++ payload)))
  end.
Proof.
  intros Hg Hn [ G1 G2 G3 G4 G5 G6 G7 G8 G9 ]. pose proof (finish_growing d o h w n Hg G3 G4 Hn) as H.
  destruct (final_shape h o n) as [ shape | ].
  2:{ destruct H as (r & E & H). exists r. split; [ auto | ]. unfold finish, drop_writer. rewrite !H. split; [ reflexivity | ].
      destruct (r =? 0); cbn [snd]; rewrite ?H; auto. }
  destruct H as (H & Hsh & Hax). cbn zeta. split; [ auto | split; [ auto | ] ].
  set (new := suffix o h (dec (variable_axis h n))) in *. set (old := suffix o h filler) in *.
  assert (Hlen : lenN new = lenN old).
  { unfold new, old. rewrite !suffix_len; auto; [ apply filler_ok | apply dec_length_u64; lia ]. }
  assert (Hne : new <> []) by now apply suffix_nonempty.
  set (P := sk_pos s0 + bytes_before_text (w_version_props w) + lenN (dict_prefix d o)).
  assert (HP : P = sk_pos s0 + lenN L) by (unfold P; rewrite G5, G6; lia).
  set (R := repeatN 32 pad ++ [10] ++ payload) in *.
  assert (Hin : P + lenN new <= lenN (sk_data s)).
  { rewrite G8, overwrite_length, !lenN_app. lia. }
  intros r s' Hf. unfold finish, drop_writer in Hf. rewrite !H in Hf. rewrite !H.
  destruct (finishing w (lenN (dict_prefix d o)) new s) as (r1, s1) eqn:E1.
  pose proof (finishing_any w _ new (sk_pos s0) s r1 s1 G1 G2 E1 Hin Hne) as H1. fold P in H1.
  destruct H1 as [ (-> & Hs1 & Hf1) | (-> & Hf1 & Hm & k & Hk & Hd & H0) ].
  - rewrite !H in Hf. destruct (finishing w (lenN (dict_prefix d o)) new s1) as (r2, s2) eqn:E2.
    assert (Hd1 : sk_data s1 = overwrite (sk_data s0) (sk_pos s0) (L ++ new ++ R)).
    { rewrite Hs1. cbn [sk_data]. rewrite G8, HP. apply overwrite_mid. auto. }
    assert (Hin1 : P + lenN new <= lenN (sk_data s1)).
    { rewrite Hd1, overwrite_length, !lenN_app. lia. }
    pose proof (finishing_any w _ new (sk_pos s0) s1 r2 s2 G1 G2 E2 Hin1 Hne) as H2. fold P in H2.
    destruct H2 as [ (-> & Hs2 & Hf2) | (-> & Hf2 & (m & Hm) & k & Hk & Hd & H0) ]; apply pair_inj in Hf as (<- & <-); cbn [fst snd].
    + assert (Hd2 : sk_data s2 = overwrite (sk_data s0) (sk_pos s0) (L ++ new ++ R)).
      { rewrite Hs2. cbn [sk_data]. rewrite Hd1, HP. apply overwrite_mid. auto. }
      split; [ rewrite Hd1, Hd2; auto | ]. left. split; [ auto | split; [ auto | ] ].
      intros HfN. specialize (Hf1 HfN). specialize (Hf2 Hf1).
      assert (Hp1 : sk_pos s1 = sk_pos s) by (rewrite Hs1; reflexivity).
      split; [ rewrite Hs2; cbn [sk_pos]; auto | split; [ auto | ] ]. f_equal. destruct s1 as [ D1 p1 f1 ], s2 as [ D2 p2 f2 ]. cbn [sk_data sk_pos sk_fuel] in *.
      injection Hs2 as _ ->. congruence.
    + assert (Hd2 : sk_data s2 = overwrite (sk_data s0) (sk_pos s0) (L ++ new ++ R)).
      { rewrite Hd, Hd1, HP. rewrite overwrite_prefix by auto. f_equal. f_equal. rewrite app_assoc. now rewrite takeN_dropN. }
      split; [ rewrite Hd1, Hd2; auto | ]. left. split; [ auto | split; [ auto | ] ]. intros HfN. specialize (Hf1 HfN). congruence.
  - rewrite !H in Hf. destruct (finishing w (lenN (dict_prefix d o)) new s1) as (r2, s2) eqn:E2.
    assert (Hd1 : sk_data s1 = overwrite (sk_data s0) (sk_pos s0) (L ++ takeN k new ++ dropN k old ++ R)).
    { rewrite Hd, G8, HP. now apply overwrite_prefix. }
    assert (Hin1 : P + lenN new <= lenN (sk_data s1)).
    { rewrite Hd1, overwrite_length, !lenN_app, lenN_takeN, lenN_dropN. lia. }
    pose proof (finishing_any w _ new (sk_pos s0) s1 r2 s2 G1 G2 E2 Hin1 Hne) as H2. fold P in H2.
    destruct H2 as [ (-> & Hs2 & Hf2) | (-> & Hf2 & (m & Hm2) & k2 & Hk2 & Hd2 & H02) ].
    + exfalso. clear - E2 Hf1 G1 G2. unfold finishing, patch, sbind, ms_tell, sink_tell in E2. rewrite G2, G1 in E2. unfold sink_tick in E2. rewrite Hf1 in E2. discriminate.
    + specialize (H02 Hf1). subst s2. apply pair_inj in Hf as (<- & <-). cbn [fst snd]. split; [ auto | ]. right.
      split; [ auto | split; [ auto | split; [ auto | ] ] ]. exists k. auto.
Qed.
