(** Writing a header and reading it back. *)
From Verif Require Import M_Base M_Text M_TypeStr M_PyLit M_IO M_Header M_Read M_Serialize M_Write.
From Verif Require Import S_TypeStr S_DType P_Base P_Text P_TypeStr P_PyLit P_Header P_IO P_Sink.
Open Scope N_scope.

Definition order_word (o : order) : text := match o with OrderC => lit "False" | OrderFortran => lit "True" end.
Definition order_bool (o : order) : bool := match o with OrderC => false | OrderFortran => true end.

(** The dictionary as text, given the text of the shape tuple. *)
Definition dict_text (d : dtype) (o : order) (shape : text) : text :=
  lit "{'descr': " ++ descr d ++ lit ", 'fortran_order': " ++ order_word o ++ lit ", 'shape': " ++ shape ++ lit ", }".

Definition dict_value (d : dtype) (o : order) (shape : list N) : value :=
  VDict [(VString (lit "descr"), snd (value_parts d));
         (VString (lit "fortran_order"), VBool (order_bool o));
         (VString (lit "shape"), VTuple (map (fun n => VInteger (Z.of_N n)) shape))].

Lemma dict_text_prints d o T shape : top_level d -> starter T ->
  prints T (VTuple (map (fun n => VInteger (Z.of_N n)) shape)) ->
  starter (dict_text d o T) /\ prints (dict_text d o T) (dict_value d o shape).
Proof.
  intros Ht Hs Hp. destruct (descr_prints d Ht) as (Hsd & Hpd).
  split; [ cbn; repeat split; lia | ].
  pose proof (prints_dict
    [ {| e_kt := lit "'descr'"; e_k := VString (lit "descr"); e_vt := descr d; e_v := snd (value_parts d) |};
      {| e_kt := lit "'fortran_order'"; e_k := VString (lit "fortran_order"); e_vt := order_word o; e_v := VBool (order_bool o) |};
      {| e_kt := lit "'shape'"; e_k := VString (lit "shape"); e_vt := T; e_v := VTuple (map (fun n => VInteger (Z.of_N n)) shape) |} ]) as P.
  cbn [entries_text e_kt e_vt map entry_pair e_k e_v] in P. unfold dict_text, dict_value.
  assert (Hkey : forall k, plain (lit k) -> starter (39 :: lit k ++ [39]) /\ prints (39 :: lit k ++ [39]) (VString (lit k))).
  { intros k Hk. split; [ cbn; repeat split; lia | now apply prints_plain ]. }
  assert (K1 := Hkey "descr"%string). assert (K2 := Hkey "fortran_order"%string). assert (K3 := Hkey "shape"%string). clear Hkey.
  destruct K1 as (K1s & K1); [ plain_lit | ]. destruct K2 as (K2s & K2); [ plain_lit | ]. destruct K3 as (K3s & K3); [ plain_lit | ].
  match type of P with _ -> prints ?A _ => match goal with |- prints ?B _ => assert (E : B = A) end end.
  { app_norm. reflexivity. }
  rewrite E. apply P. clear P E.
  constructor; [ | constructor; [ | constructor; [ | constructor ] ] ]; (split; [ | split ]); cbn [e_kt e_k e_vt e_v]; auto.
  - now apply prints_item.
  - apply prints_item; [ destruct o; cbn; repeat split; lia | ]. destruct o; [ apply prints_false | apply prints_true ].
  - now apply prints_item.
Qed.

(** The bytes of the dictionary are the UTF-8 form of its text. *)
Lemma utf8_lit s : ascii_text (lit s) -> utf8 (lit s) = lit s.
Proof. apply utf8_ascii. Qed.

Lemma dict_bytes d o T : ascii_text T ->
  utf8 (dict_text d o (40 :: T)) = dict_prefix d o ++ T ++ lit ", }".
Proof.
  intros HT. unfold dict_text, dict_prefix. rewrite !utf8_app. rewrite !utf8_lit by plain_lit.
  rewrite (utf8_ascii (order_word o)) by (destruct o; plain_lit).
  rewrite (utf8_ascii (40 :: T)) by (constructor; [ lia | auto ]).
  destruct o; cbn [order_word]; app_norm; reflexivity.
Qed.

Lemma shape_items_eq l : shape_items l = items_text [32] (map (fun n => (dec n, VInteger (Z.of_N n))) l).
Proof. induction l; auto. cbn [shape_items map items_text app]. rewrite IHl. reflexivity. Qed.
Lemma shape_items_prints l : prints (40 :: shape_items l ++ [41]) (VTuple (map (fun n => VInteger (Z.of_N n)) l)).
Proof.
  rewrite shape_items_eq.
  replace (map (fun n => VInteger (Z.of_N n)) l) with (map snd (map (fun n => (dec n, VInteger (Z.of_N n))) l))
    by (rewrite map_map; reflexivity).
  apply prints_tuple; [ repeat constructor | ]. intros T v Hin. apply in_map_iff in Hin as (n & [= <- <-] & _). apply dec_item.
Qed.
Lemma shape_items_ascii l : ascii_text (shape_items l).
Proof. induction l; [ constructor | ]. cbn [shape_items]. apply ascii_app; [ apply dec_ascii | ]. constructor; [ cbn; lia | ]. constructor; [ cbn; lia | auto ]. Qed.

(** * Interpretation of the dictionary *)
Lemma interpret_dict c d o shape : wf_dtype d -> top_level d -> Forall (fun n => n < 2 ^ 64) shape ->
  interpret_header c (dict_value d o shape) = from_parts c d shape o.
Proof.
  intros Hw Ht Hs. unfold interpret_header, dict_value.
  cbn [string_keys bind].
  unfold expect_key. cbn [map_get lit eqb_list].
  cbn -[value_parts from_descr convert_value_to_shape from_parts lit].
  rewrite convert_shape_ok by auto. cbn [bind]. rewrite value_convert by auto. cbn [bind]. destruct o; reflexivity.
Qed.

(** * Padding and versions *)
Definition is_ascii (bs : bytes) : bool := negb (existsb (fun b => 128 <=? b) bs).

Lemma determine_ok header : exists padded version props pad,
  determine_required_version_and_pad_header header = Ok (padded, version, props)
  /\ padded = header ++ repeatN 32 pad ++ [10] /\ pad < 64
  /\ (lenN padded + bytes_before_text props) mod 64 = 0
  /\ get_version_props version = Some props
  /\ version = (if negb (is_ascii header) then (3, 0) else if safe_u16_cutoff <=? lenN header then (2, 0) else (1, 0))
  /\ props = {| vp_u32 := negb (is_ascii header) || (safe_u16_cutoff <=? lenN header); vp_utf8 := negb (is_ascii header) |}.
Proof.
  unfold determine_required_version_and_pad_header, get_minimal_version, is_ascii. cbn [vp_utf8 vp_u32].
  set (u := existsb _ header). rewrite negb_involutive.
  set (big := safe_u16_cutoff <=? lenN header).
  set (version := if u then (3, 0) else if big then (2, 0) else (1, 0)).
  set (props := {| vp_u32 := u || big; vp_utf8 := u |}).
  assert (Hv : get_version_props version = Some props).
  { unfold version, props. destruct u, big; reflexivity. }
  rewrite Hv. set (before := bytes_before_text props).
  set (pad := align_to - 1 - (lenN header + before) mod align_to).
  assert (Hpad : (lenN (header ++ repeatN 32 pad ++ [10]) + before) mod align_to = 0).
  { rewrite !lenN_app, lenN_repeatN, lenN_cons, lenN_nil. unfold pad, align_to. lia. }
  rewrite Hpad. cbn [N.eqb].
  do 4 eexists. split; [ reflexivity | ]. split; [ reflexivity | ]. split; [ unfold pad, align_to; lia | ].
  split; [ exact Hpad | ]. auto.
Qed.

(** * The preamble *)
Definition len_field (props : version_props) (n : N) : bytes := le_bytes (if vp_u32 props then 4 else 2) n.
Definition preamble (version : N * N) (props : version_props) (txt : bytes) : bytes :=
  magic ++ [fst version; snd version] ++ len_field props (lenN txt) ++ txt.

Lemma le_bytes_length n : forall v, lenN (le_bytes n v) = N.of_nat n.
Proof. induction n; intros v; cbn [le_bytes]; auto. rewrite lenN_cons, IHn. lia. Qed.
Lemma le_value_bytes n : forall v, v < 256 ^ N.of_nat n -> le_value (le_bytes n v) = v.
Proof.
  induction n; intros v Hv; cbn [le_bytes le_value].
  - cbn in Hv. lia.
  - rewrite Nat2N.inj_succ, N.pow_succ_r' in Hv. rewrite IHn by (apply N.div_lt_upper_bound; lia). lia.
Qed.
Lemma le_bytes_ok n : forall v, Forall (fun b => b < 256) (le_bytes n v).
Proof. induction n; intros v; cbn [le_bytes]; constructor; auto. lia. Qed.

Definition len_ok (props : version_props) (n : N) : bool := if vp_u32 props then n <=? 2 ^ 32 - 1 else n <=? 2 ^ 16 - 1.

(** [write_header] is one write of the preamble, or a panic (possibly after the magic and version). *)
Lemma write_header_eq c d o h dict info padded version props : top_level d ->
  create_dict c d o h = Ok (dict, info) ->
  determine_required_version_and_pad_header dict = Ok (padded, version, props) ->
  (lenN padded + bytes_before_text props) mod 64 = 0 ->
  forall s, write_header c d o h s =
    if len_ok props (lenN padded)
    then (let@ _u := sink_write (preamble version props padded) in sret (Ok (info, props))) s
    else (let@ _u := sink_write (magic ++ [fst version; snd version]) in sret Panic) s.
Proof.
  intros Ht Hd Hv Hm s. unfold write_header. destruct d as [ t | n d | fs ]; [ | destruct Ht | ].
  all: rewrite sret_bind, Hd; cbn [fst snd]; rewrite sret_bind, Hv.
  all: rewrite !sink_write_then.
  all: replace (_ mod 16 =? 0) with true by lia; cbn [negb].
  all: unfold len_ok, preamble, len_field; destruct (vp_u32 props).
  all: match goal with |- context [if ?b then _ else _] => destruct b end.
  all: try (rewrite !sink_write_then; unfold sbind; f_equal; f_equal; unfold magic; app_norm; reflexivity).
  all: unfold sbind, sret, magic; app_norm; reflexivity.
Qed.

(** * Reading the preamble *)
Lemma read_preamble version props txt rest :
  get_version_props version = Some props -> len_ok props (lenN txt) = true -> fst version < 256 -> snd version < 256 ->
  run read_header (preamble version props txt ++ rest) = (parse_header_text txt, rest).
Proof.
  intros Hv Hl _ _. unfold read_header, read_pre_header, read_magic_and_version. rewrite run_bind, run_bind.
  unfold preamble. rewrite <- !app_assoc.
  assert (M : run (RRead 8 (EData (lit "magic not found for NPY file")) (fun buf : bytes =>
      if eqb_list (takeN 6 buf) magic then RRet (nth 6 buf 0, nth 7 buf 0) else RErr (EData (lit "magic not found for NPY file"))))
      (magic ++ [fst version; snd version] ++ len_field props (lenN txt) ++ txt ++ rest)
      = (Ok version, len_field props (lenN txt) ++ txt ++ rest)).
  { cbn [run]. rewrite (app_assoc magic). rewrite lenN_app.
    replace (8 <=? _) with true by (change (lenN (magic ++ [fst version; snd version])) with 8; lia).
    rewrite takeN_app, dropN_app by reflexivity.
    replace (takeN 6 (magic ++ [fst version; snd version])) with magic by reflexivity.
    rewrite eqb_list_refl. cbn. now destruct version. }
  rewrite M. cbn [then_]. rewrite Hv. rewrite run_bind.
  unfold len_field, len_ok in *.
  rewrite run_read_exact by (rewrite le_bytes_length; destruct (vp_u32 props); reflexivity).
  cbn [then_ run]. rewrite le_value_bytes by (destruct (vp_u32 props); change (256 ^ N.of_nat 4) with (2 ^ 32); change (256 ^ N.of_nat 2) with (2 ^ 16); lia).
  cbn [snd]. rewrite run_bind, run_read_exact by reflexivity. cbn [then_]. apply run_lift.
Qed.

Lemma parse_padded T v pad : scalars T -> starter T -> prints T v -> parse_header_text (utf8 T ++ repeatN 32 pad ++ [10]) = Ok v.
Proof.
  intros Hsc Hs Hp. unfold parse_header_text. rewrite app_assoc, strip_newline_nl.
  assert (Hb : blanks (repeatN 32 pad)) by (apply Forall_repeatN; reflexivity).
  replace (utf8 T ++ repeatN 32 pad) with (utf8 (T ++ repeatN 32 pad)).
  - rewrite from_utf8_utf8; [ now rewrite (parse_literal_prints T v) | ].
    apply Forall_app; split; auto. now apply Forall_repeatN.
  - rewrite utf8_app. f_equal. apply utf8_ascii. apply Forall_repeatN. lia.
Qed.

Lemma dict_text_scalars d o T : wf_dtype d -> top_level d -> ascii_text T -> scalars (dict_text d o T).
Proof.
  intros Hw Ht HT. unfold dict_text.
  repeat first [ apply ascii_scalars; plain_lit | now apply descr_scalars | now apply ascii_scalars
               | apply ascii_scalars; destruct o; plain_lit | apply scalars_app ].
Qed.

(** * Combined facts *)
From Verif Require Import S_Header S_Shape P_Shape.

Lemma header_dict_text d o shape : header_dict d o shape = dict_text d o (40 :: shape_items shape ++ [41]).
Proof.
  unfold header_dict, dict_text.
  replace (flat_map (fun n => dec n ++ lit ", ") shape) with (shape_items shape)
    by (induction shape; cbn [shape_items flat_map]; rewrite ?IHshape, <- ?app_assoc; reflexivity).
  unfold order_word. app_norm. reflexivity.
Qed.

Lemma header_dict_bytes d o shape : utf8 (header_dict d o shape) = dict_prefix d o ++ shape_items shape ++ lit "), }".
Proof.
  rewrite header_dict_text, dict_bytes by (apply ascii_app; [ apply shape_items_ascii | plain_lit ]).
  app_norm. reflexivity.
Qed.

Lemma little_endian_le bs : little_endian bs = le_value bs.
Proof. reflexivity. Qed.

Lemma is_ascii_exists bs : is_ascii bs = false <-> Exists (fun b => 128 <= b) bs.
Proof.
  unfold is_ascii. rewrite negb_false_iff, existsb_exists, Exists_exists.
  split; intros (x & Hx & Hb); exists x; split; auto; lia.
Qed.
Lemma is_ascii_app a b : is_ascii (a ++ b) = is_ascii a && is_ascii b.
Proof. unfold is_ascii. now rewrite existsb_app, negb_orb. Qed.
Lemma is_ascii_padded dict pad : is_ascii (dict ++ repeatN 32 pad ++ [10]) = is_ascii dict.
Proof.
  rewrite !is_ascii_app. replace (is_ascii (repeatN 32 pad)) with true; [ now rewrite andb_true_r | ].
  symmetry. unfold is_ascii. apply negb_true_iff. apply not_true_is_false. rewrite existsb_exists. intros (x & Hx & Hb).
  pose proof (Forall_repeatN (fun b => b = 32) 32 pad eq_refl) as F. rewrite Forall_forall in F. apply F in Hx. lia.
Qed.

(** What [write_header] writes: [preamble] of the padded dictionary. *)
Inductive header_of (dict hdr : bytes) (props : version_props) (pad : N) : Prop :=
HeaderOf (version : N * N)
  (Hhdr : hdr = preamble version props (dict ++ repeatN 32 pad ++ [10]))
  (Hpad : pad < 64)
  (Halign : (lenN (dict ++ repeatN 32 pad ++ [10]) + bytes_before_text props) mod 64 = 0)
  (Hprops : get_version_props version = Some props)
  (Hversion : version = (if negb (is_ascii dict) then (3, 0) else if safe_u16_cutoff <=? lenN dict then (2, 0) else (1, 0)))
  (Hprops' : props = {| vp_u32 := negb (is_ascii dict) || (safe_u16_cutoff <=? lenN dict); vp_utf8 := negb (is_ascii dict) |})
  (Hlen : len_ok props (lenN (dict ++ repeatN 32 pad ++ [10])) = true).

Lemma bytes_before_eq props : bytes_before_text props = if vp_u32 props then 12 else 10.
Proof. unfold bytes_before_text. destruct (vp_u32 props); reflexivity. Qed.

Lemma preamble_length version props txt : lenN (preamble version props txt) = bytes_before_text props + lenN txt.
Proof.
  rewrite bytes_before_eq. unfold preamble, len_field. rewrite !lenN_app, le_bytes_length, !lenN_cons.
  change (lenN magic) with 6. rewrite lenN_nil. destruct (vp_u32 props); lia.
Qed.

(** Exactly when the length assertion holds, in terms of the dictionary's length. *)
Definition header_fits (dict : bytes) : Prop :=
  if negb (is_ascii dict) || (safe_u16_cutoff <=? lenN dict) then lenN dict <= 2 ^ 32 - 13 else lenN dict <= 65525.

Lemma len_ok_fits dict pad props : pad < 64 ->
  props = {| vp_u32 := negb (is_ascii dict) || (safe_u16_cutoff <=? lenN dict); vp_utf8 := negb (is_ascii dict) |} ->
  (lenN (dict ++ repeatN 32 pad ++ [10]) + bytes_before_text props) mod 64 = 0 ->
  (len_ok props (lenN (dict ++ repeatN 32 pad ++ [10])) = true <-> header_fits dict).
Proof.
  intros Hp -> Hm. rewrite bytes_before_eq in Hm. unfold len_ok, header_fits. cbn [vp_u32] in *.
  rewrite !lenN_app, lenN_repeatN, lenN_cons, lenN_nil in *.
  change (2 ^ 32 - 1) with 4294967295. change (2 ^ 32 - 13) with 4294967283. change (2 ^ 16 - 1) with 65535.
  destruct (negb (is_ascii dict) || (safe_u16_cutoff <=? lenN dict)); lia.
Qed.

Lemma write_header_full c d o h dict info : top_level d -> create_dict c d o h = Ok (dict, info) ->
  exists pad props hdr version,
  pad < 64 /\ props = {| vp_u32 := negb (is_ascii dict) || (safe_u16_cutoff <=? lenN dict); vp_utf8 := negb (is_ascii dict) |} /\
  (header_fits dict -> header_of dict hdr props pad) /\
  (header_fits dict -> forall s, write_header c d o h s = (let@ _u := sink_write hdr in sret (Ok (info, props))) s) /\
  (~ header_fits dict -> forall s, write_header c d o h s = (let@ _u := sink_write (magic ++ [fst version; snd version]) in sret Panic) s).
Proof.
  intros Ht Hd. destruct (determine_ok dict) as (padded & version & props & pad & Hdet & -> & Hpad & Hm & Hgv & Hv & Hp).
  exists pad, props, (preamble version props (dict ++ repeatN 32 pad ++ [10])), version.
  split; [ auto | ]. split; [ auto | ].
  pose proof (len_ok_fits dict pad props Hpad Hp Hm) as Hfit.
  split; [ | split ].
  - intros Hf. exists version; auto. now apply Hfit.
  - intros Hf s. rewrite (write_header_eq c d o h dict info _ version props Ht Hd Hdet Hm).
    replace (len_ok _ _) with true by (symmetry; now apply Hfit). reflexivity.
  - intros Hf s. rewrite (write_header_eq c d o h dict info _ version props Ht Hd Hdet Hm).
    destruct (len_ok props _); [ | reflexivity ]. exfalso. apply Hf. now apply Hfit.
Qed.

Lemma sink_write_cases bs s : exists s', (sink_write bs s = (Ok tt, s') \/ sink_write bs s = (Err ESink, s')) .
Proof.
  destruct (sk_fuel s) as [ n | ] eqn:F.
  - rewrite (sink_write_some s bs n F). destruct (lenN bs <=? n); eauto.
  - rewrite (sink_write_none s bs F). eauto.
Qed.

Lemma write_header_ok_inv c d o h info props s s' : write_header c d o h s = (Ok (info, props), s') ->
  top_level d /\ exists dict pad hdr, create_dict c d o h = Ok (dict, info) /\ header_of dict hdr props pad /\ header_fits dict
    /\ sink_write hdr s = (Ok tt, s').
Proof.
  intros H. assert (Ht : top_level d) by (destruct d; try exact I; discriminate H).
  split; [ auto | ].
  assert (Hc : exists dict info', create_dict c d o h = Ok (dict, info')).
  { unfold write_header in H. destruct d; try contradiction; rewrite sret_bind in H;
    destruct (create_dict c _ o h) as [ (dict, info') | | ]; eauto; discriminate. }
  destruct Hc as (dict & info' & Hc).
  destruct (write_header_full c d o h dict info' Ht Hc) as (pad & props' & hdr & version & Hpad & Hp & Hho & Hok & Hno).
  assert (Hf : header_fits dict \/ ~ header_fits dict) by (unfold header_fits; destruct (_ || _); lia).
  destruct Hf as [ Hf | Hf ].
  - rewrite (Hok Hf) in H. unfold sbind in H.
    destruct (sink_write_cases hdr s) as (s1 & [ E | E ]); rewrite E in H; [ | discriminate ].
    injection H as <- <- <-. exists dict, pad, hdr. auto.
  - rewrite (Hno Hf) in H. unfold sbind in H.
    destruct (sink_write (magic ++ [fst version; snd version]) s) as ([ [] | | ], s1); discriminate.
Qed.

Lemma header_layout dict hdr props pad : header_of dict hdr props pad ->
  exists major, npy_layout hdr major 0 (dict ++ repeatN 32 pad ++ [10]).
Proof.
  intros [ version -> Hpad Hm Hgv Hv Hp Hl ].
  exists (fst version). constructor.
  - exists (len_field props (lenN (dict ++ repeatN 32 pad ++ [10]))). split; [ | split; [ | split ] ].
    + unfold preamble. replace (snd version) with 0; [ reflexivity | ].
      rewrite Hv. destruct (negb (is_ascii dict)), (safe_u16_cutoff <=? lenN dict); reflexivity.
    + unfold len_field. rewrite le_bytes_length. rewrite Hp, Hv. cbn [vp_u32].
      destruct (negb (is_ascii dict)), (safe_u16_cutoff <=? lenN dict); reflexivity.
    + apply le_bytes_ok.
    + rewrite little_endian_le. unfold len_field. apply le_value_bytes.
      unfold len_ok in Hl. destruct (vp_u32 props); apply N.leb_le in Hl.
      * change (256 ^ N.of_nat 4) with 4294967296. change (2 ^ 32 - 1) with 4294967295 in Hl. lia.
      * change (256 ^ N.of_nat 2) with 65536. change (2 ^ 16 - 1) with 65535 in Hl. lia.
  - exists (dict ++ repeatN 32 pad). now rewrite <- app_assoc.
  - rewrite preamble_length. rewrite N.add_comm. exact Hm.
  - rewrite Hv. destruct (negb (is_ascii dict)), (safe_u16_cutoff <=? lenN dict); cbn; auto.
  - rewrite <- is_ascii_exists, is_ascii_padded, Hv.
    destruct (is_ascii dict), (safe_u16_cutoff <=? lenN dict); cbn; split; intros; try discriminate; auto; lia.
Qed.

(** Reading what was written for a fixed shape. *)
Lemma read_written_nd c d o shape hdr props pad :
  wf_dtype d -> top_level d -> Forall (fun n => n < 2 ^ 64) shape ->
  header_of (utf8 (header_dict d o shape)) hdr props pad ->
  forall rest, run (read_and_interpret c) (hdr ++ rest) = (from_parts c d shape o, rest).
Proof.
  intros Hw Ht Hs [ version -> Hpad Hm Hgv Hv Hp Hl ] rest.
  unfold read_and_interpret. rewrite run_bind, read_preamble.
  - rewrite header_dict_text.
    assert (Ha : ascii_text (40 :: shape_items shape ++ [41])).
    { change (40 :: shape_items shape ++ [41]) with ([40] ++ shape_items shape ++ [41]).
      apply ascii_app; [ plain_lit | apply ascii_app; [ apply shape_items_ascii | plain_lit ] ]. }
    assert (Hst : starter (40 :: shape_items shape ++ [41])) by (cbn; repeat split; discriminate).
    destruct (dict_text_prints d o _ shape Ht Hst (shape_items_prints shape)) as (Hst' & Hpr).
    rewrite (parse_padded _ _ pad (dict_text_scalars d o _ Hw Ht Ha) Hst' Hpr).
    cbn [then_]. rewrite run_lift. now rewrite interpret_dict.
  - auto.
  - auto.
  - rewrite Hv. destruct (negb _); [ | destruct (safe_u16_cutoff <=? _) ]; reflexivity.
  - rewrite Hv. destruct (negb _); [ | destruct (safe_u16_cutoff <=? _) ]; reflexivity.
Qed.

Lemma write_header_only_inv c d o shape s s' : write_header_only c d o shape s = (Ok tt, s') ->
  top_level d /\ exists pad hdr props, header_of (utf8 (header_dict d o shape)) hdr props pad /\ sink_write hdr s = (Ok tt, s').
Proof.
  unfold write_header_only. unfold sbind. intros H.
  destruct (write_header c d o (NDimensional shape) s) as ([ (info, props) | | ], s1) eqn:E; try discriminate.
  injection H as <-. apply write_header_ok_inv in E as (Ht & dict & pad & hdr & Hc & Hh & _ & Hw).
  split; [ auto | ]. exists pad, hdr, props. split; [ | auto ].
  rewrite header_dict_bytes. cbn [create_dict] in Hc. apply bind_ok in Hc as (n & _ & Hc). match type of Hc with Ok (?a, _) = _ => replace a with dict by congruence end. exact Hh.
Qed.

Lemma sink_write_at_end hdr s s' : sk_pos s = lenN (sk_data s) -> sink_write hdr s = (Ok tt, s') ->
  sk_data s' = sk_data s ++ hdr /\ sk_pos s' = lenN (sk_data s').
Proof.
  intros He H. apply sink_write_ok in H. rewrite put_end in H by exact He. rewrite H. auto.
Qed.

Lemma header_round_trip c d o shape s s' :
  write_header_only c d o shape s = (Ok tt, s') ->
  sk_pos s = lenN (sk_data s) -> wf_dtype d -> Forall (fun n => n < 2 ^ 64) shape -> no_overflow shape ->
  exists hdr, sk_data s' = sk_data s ++ hdr /\ sk_pos s' = lenN (sk_data s')
  /\ forall c' rest, uses_pickled_array d = true \/ (exists n, num_bytes c' d = Some n) ->
     exists h, run (read_and_interpret c') (hdr ++ rest) = (Ok h, rest)
     /\ h_dtype h = d /\ h_shape h = shape /\ h_order h = o /\ h_n_records h = count shape.
Proof.
  intros H He Hw Hs Hno. apply write_header_only_inv in H as (Ht & pad & hdr & props & Hh & Hwr).
  exists hdr. destruct (sink_write_at_end _ _ _ He Hwr) as (Hd & Hp). split; [ auto | ]. split; [ auto | ].
  intros c' rest Hr. rewrite (read_written_nd c' d o shape hdr props pad Hw Ht Hs Hh rest).
  destruct (from_parts_intro c' d shape o Hno Hr) as (h & Hfp). rewrite Hfp. exists h. split; [ auto | ].
  pose proof (len_exact _ _ _ _ _ Hfp Hno). apply from_parts_ok in Hfp. tauto.
Qed.

Lemma create_dict_bytes c d o h dict info : wf_dtype d -> top_level d -> create_dict c d o h = Ok (dict, info) -> Forall (fun b => b < 256) dict.
Proof.
  intros Hw Ht H.
  assert (G : forall l, ascii_text l -> Forall (fun b => b < 256) l).
  { intros l Hl. eapply Forall_impl; [ | exact Hl ]. cbn. intros; lia. }
  assert (Hpre : Forall (fun b => b < 256) (dict_prefix d o)).
  { pose proof (dict_bytes d o [] (Forall_nil _)) as E. cbn [app] in E.
    assert (F : Forall (fun b => b < 256) (utf8 (dict_text d o [40]))) by (apply utf8_bytes, dict_text_scalars; auto; plain_lit).
    rewrite E in F. now apply Forall_app in F. }
  assert (Hdig : forall n, Forall (fun b => b < 256) (dec n)) by (intros; apply G, dec_ascii).
  assert (Hlit : forall s, forallb (fun c => c <? 128) (lit s) = true -> Forall (fun b => b < 256) (lit s)).
  { intros s Hs. apply G. now apply ascii_check. }
  destruct h as [ shape | r | ]; cbn [create_dict] in H; apply bind_ok in H as (x & Hx & H); apply Ok_inj, pair_inj in H as (<- & _).
  - apply Forall_app; split; [ auto | ]. apply Forall_app; split; [ apply G, shape_items_ascii | now apply Hlit ].
  - apply Forall_app; split; [ auto | ]. unfold shape_suffix_2d in Hx. cbn [bind filler_space_padding] in Hx.
    change (filler_space_padding (lenN filler)) with (Ok (A := bytes) []) in Hx. cbn [bind] in Hx. apply Ok_inj in Hx as <-.
    rewrite app_nil_r. destruct o; repeat (apply Forall_app; split); auto; now apply Hlit.
  - apply Forall_app; split; [ auto | ]. unfold shape_suffix_1d in Hx.
    change (filler_space_padding (lenN filler)) with (Ok (A := bytes) []) in Hx. cbn [bind] in Hx. apply Ok_inj in Hx as <-.
    now apply (Hlit "********************,), }"%string).
Qed.

Lemma header_bytes_ok dict hdr props pad : Forall (fun b => b < 256) dict -> header_of dict hdr props pad -> Forall (fun b => b < 256) hdr.
Proof.
  intros Hd [ version -> _ _ _ Hv _ _ ]. unfold preamble, len_field.
  repeat (apply Forall_app; split).
  - repeat constructor.
  - rewrite Hv. destruct (negb _); [ | destruct (safe_u16_cutoff <=? lenN dict) ]; repeat constructor.
  - apply le_bytes_ok.
  - auto.
  - now apply Forall_repeatN.
  - repeat constructor.
Qed.

Lemma header_conforms c d o h s info props s' : write_header c d o h s = (Ok (info, props), s') -> sk_pos s = lenN (sk_data s) ->
  exists hdr major txt, sk_data s' = sk_data s ++ hdr /\ npy_layout hdr major 0 txt /\ (wf_dtype d -> Forall (fun b => b < 256) hdr).
Proof.
  intros H He. apply write_header_ok_inv in H as (Ht & dict & pad & hdr & Hc & Hh & _ & Hw).
  destruct (header_layout _ _ _ _ Hh) as (major & Hl).
  destruct (sink_write_at_end _ _ _ He Hw) as (Hd & _). exists hdr, major, (dict ++ repeatN 32 pad ++ [10]).
  split; [ auto | ]. split; [ auto | ]. intros Hwf. eapply header_bytes_ok; [ | exact Hh ]. eapply create_dict_bytes; eauto.
Qed.

Lemma header_text_exact c d o shape s s' : write_header_only c d o shape s = (Ok tt, s') -> sk_pos s = lenN (sk_data s) ->
  exists hdr major pad, sk_data s' = sk_data s ++ hdr
  /\ npy_layout hdr major 0 (utf8 (header_dict d o shape) ++ repeatN 32 pad ++ [10]) /\ pad < 64.
Proof.
  intros H He. apply write_header_only_inv in H as (Ht & pad & hdr & props & Hh & Hwr).
  destruct (header_layout _ _ _ _ Hh) as (major & Hl). destruct (sink_write_at_end _ _ _ He Hwr) as (Hd & _).
  exists hdr, major, pad. split; [ auto | ]. split; [ auto | ]. now destruct Hh.
Qed.

(** When writing a header panics. *)
Lemma write_header_only_panic_iff c d o shape s n : top_level d -> product c shape = Ok n -> sk_fuel s = None ->
  let T := utf8 (header_dict d o shape) in
  (fst (write_header_only c d o shape s) = Panic <->
     (Forall (fun b => b < 128) T /\ 65525 < lenN T < 0xfffffc00) \/ 2 ^ 32 - 13 < lenN T)
  /\ fst (write_header_only c d o shape s) <> Err ESink
  /\ (fst (write_header_only c d o shape s) = Panic \/ fst (write_header_only c d o shape s) = Ok tt).
Proof.
  intros Ht Hn Hf. cbv zeta.
  assert (Hc : create_dict c d o (NDimensional shape) = Ok (utf8 (header_dict d o shape), Known n)).
  { cbn [create_dict]. rewrite Hn. cbn [bind]. now rewrite header_dict_bytes. }
  set (T := utf8 (header_dict d o shape)) in *.
  destruct (write_header_full c d o _ T (Known n) Ht Hc) as (pad & props & hdr & version & Hpad & Hp & Hho & Hok & Hno).
  assert (Hasc : is_ascii T = true <-> Forall (fun b => b < 128) T).
  { unfold is_ascii. rewrite negb_true_iff, <- not_true_iff_false, existsb_exists, Forall_forall. split.
    - intros Hx x Hin. apply N.lt_nge. intros Hge. apply Hx. exists x. split; auto. lia.
    - intros Hx (x & Hin & Hge). apply Hx in Hin. lia. }
  assert (Hiff : ~ header_fits T <-> (Forall (fun b => b < 128) T /\ 65525 < lenN T < 0xfffffc00) \/ 2 ^ 32 - 13 < lenN T).
  { rewrite <- Hasc. unfold header_fits. change (2 ^ 32 - 13) with 4294967283. change safe_u16_cutoff with 4294966272. change 0xfffffc00 with 4294966272.
    destruct (is_ascii T); cbn [negb orb]; [ destruct (N.leb_spec 4294966272 (lenN T)) | ]; split; intros; try lia.
    }
  assert (Hd : header_fits T \/ ~ header_fits T) by (unfold header_fits; destruct (_ || _); lia).
  unfold write_header_only, sbind at 1. destruct Hd as [ Hd | Hd ].
  - unfold sbind. rewrite (Hok Hd). unfold sbind. rewrite (sink_write_none s hdr Hf). cbn [fst sret].
    split; [ | split; [ discriminate | now right ] ]. rewrite <- Hiff. split; [ discriminate | contradiction ].
  - unfold sbind. rewrite (Hno Hd). unfold sbind. rewrite (sink_write_none s _ Hf). cbn [fst sret].
    split; [ | split; [ discriminate | now left ] ]. rewrite <- Hiff. tauto.
Qed.

Lemma write_header_short c d o shape s n : top_level d -> product c shape = Ok n -> sk_fuel s = None ->
  let T := utf8 (header_dict d o shape) in
  lenN T <= 65525 \/ (Exists (fun b => 128 <= b) T /\ lenN T <= 2 ^ 32 - 13) ->
  fst (write_header_only c d o shape s) = Ok tt.
Proof.
  intros Ht Hn Hf T HT. destruct (write_header_only_panic_iff c d o shape s n Ht Hn Hf) as (Hiff & _ & [ HP | HOk ]); auto.
  apply Hiff in HP. fold T in HP. change (2 ^ 32 - 13) with 4294967283 in *. change 0xfffffc00 with 4294966272 in HP. exfalso.
  destruct HT as [ HT | (Hex & HT) ]; [ lia | ]. destruct HP as [ (Hall & _) | ]; [ | lia ].
  rewrite Exists_exists in Hex. destruct Hex as (x & Hin & Hx). rewrite Forall_forall in Hall. apply Hall in Hin. lia.
Qed.

(** The same with the condition on the shape made explicit. *)
Lemma product_defined c shape : (c_ovf_panics c = true -> no_overflow shape) -> exists n, product c shape = Ok n.
Proof.
  unfold product. intros H. destruct (c_ovf_panics c) eqn:E.
  - exists (1 * count shape). apply product_from_fits. now apply no_overflow_fits, H.
  - exists ((1 * count shape) mod 2 ^ 64). apply product_from_wrap; auto. reflexivity.
Qed.
Lemma header_panics c d o shape s : top_level d -> (c_ovf_panics c = true -> no_overflow shape) -> sk_fuel s = None ->
  let T := utf8 (header_dict d o shape) in
  (fst (write_header_only c d o shape s) = Panic <->
     (Forall (fun b => b < 128) T /\ 65525 < lenN T < 0xfffffc00) \/ 2 ^ 32 - 13 < lenN T)
  /\ fst (write_header_only c d o shape s) <> Err ESink
  /\ (fst (write_header_only c d o shape s) = Panic \/ fst (write_header_only c d o shape s) = Ok tt).
Proof. intros Ht Hp Hf. destruct (product_defined c shape Hp) as (n & Hn). exact (write_header_only_panic_iff c d o shape s n Ht Hn Hf). Qed.
Lemma header_written c d o shape s : top_level d -> (c_ovf_panics c = true -> no_overflow shape) -> sk_fuel s = None ->
  let T := utf8 (header_dict d o shape) in
  lenN T <= 65525 \/ (Exists (fun b => 128 <= b) T /\ lenN T <= 2 ^ 32 - 13) ->
  fst (write_header_only c d o shape s) = Ok tt.
Proof. intros Ht Hp Hf. destruct (product_defined c shape Hp) as (n & Hn). exact (write_header_short c d o shape s n Ht Hn Hf). Qed.
