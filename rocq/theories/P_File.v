(** Every byte of a finished file. *)
From Verif Require Import M_Base M_Text M_TypeStr M_PyLit M_IO M_Header M_Read M_Serialize M_NpyReader M_Write.
From Verif Require Import S_Text S_TypeStr S_DType S_Shape S_Header S_Elem S_Strings S_Reader S_Write S_DText S_File
  P_Base P_Text P_TypeStr P_PyLit P_Header P_IO P_Sink P_Shape P_WriteHeader P_Number P_Elem P_ReadOne P_WriteOne P_Codec P_Sizes P_Strings P_Parse P_Default P_ElemT P_Reader P_Array P_Writer P_WriteFile P_Session P_Whole T_Text P_DText.
Require Import ZifyBool ZifyNat ZifyN.
Open Scope N_scope.

Definition dict_bytes_of (d : dtype) (o : order) (sh : text) : bytes :=
  utf8_string (lit "{'descr': " ++ descr d ++ lit ", 'fortran_order': " ++ order_word o ++ lit ", 'shape': (" ++ sh ++ lit "), }").

Lemma dict_in d o T : dict_text d o (40 :: T ++ [41]) = lit "{'descr': " ++ descr d ++ lit ", 'fortran_order': " ++ order_word o ++ lit ", 'shape': (" ++ T ++ lit "), }".
Proof. unfold dict_text. app_norm. reflexivity. Qed.

Lemma final_dict_text d o h n shape : (growing h -> shape = shape_with o h (variable_axis h n)) -> final_shape h o n = Some shape ->
  exists sh reserve, shape_text h o shape sh reserve /\ final_dict d o h n = dict_bytes_of d o sh ++ repeatN 32 reserve.
Proof.
  intros Hs Hf. destruct h as [ sh | r | ]; cbn [final_dict].
  - cbn [final_shape] in Hf. destruct (count sh =? n); [ | discriminate ]. apply Some_inj in Hf as <-.
    exists (flat_map (fun n => dec n ++ lit ", ") sh), 0. split; [ constructor; apply listed_dec | ]. change (repeatN 32 0) with (@nil N). rewrite app_nil_r. reflexivity.
  - rewrite (Hs I). rewrite suffix_tuple by exact I. unfold tuple_text, shape_with. rewrite dict_in. destruct o.
    + eexists _, _. split; [ apply shape_rows; apply dec_shortest | reflexivity ].
    + eexists _, _. split; [ apply shape_cols; apply dec_shortest | reflexivity ].
  - rewrite (Hs I). rewrite suffix_tuple by exact I. unfold tuple_text, shape_with. rewrite dict_in.
    eexists _, _. split; [ apply shape_1d; apply dec_shortest | reflexivity ].
Qed.

Lemma ascii_reserve dict r : is_ascii (dict ++ repeatN 32 r) = is_ascii dict.
Proof. pose proof (is_ascii_padded dict r) as H. rewrite !is_ascii_app in *. change (is_ascii [10]) with true in H. now rewrite andb_true_r in H. Qed.

Lemma header_laid_out d o sh reserve hdr props pad payload : wf_dtype d -> top_level d ->
  header_of (dict_bytes_of d o sh ++ repeatN 32 reserve) hdr props pad -> laid_out d o sh reserve payload (hdr ++ payload).
Proof.
  intros Hwf Ht Hh. pose proof (header_layout _ _ _ _ Hh) as (major & HL). destruct Hh as [ version Hhdr Hpad Hal Hpr Hv Hp Hlen ].
  set (dict := dict_bytes_of d o sh) in *. set (txt := (dict ++ repeatN 32 reserve) ++ repeatN 32 pad ++ [10]) in *.
  assert (Hl : lenN txt = lenN dict + reserve + pad + 1).
  { unfold txt. rewrite !lenN_app, !lenN_repeatN, lenN_cons, lenN_nil. lia. }
  rewrite ascii_reserve, lenN_app, lenN_repeatN in Hv, Hp.
  set (m := if existsb (fun b => 128 <=? b) dict then 3 else if 0xfffffc00 <=? lenN dict + reserve then 2 else 1).
  assert (Hver : version = (m, 0)).
  { rewrite Hv. unfold m, is_ascii, safe_u16_cutoff. rewrite negb_involutive. destruct (existsb _ dict); [ reflexivity | ]. destruct (_ <=? _); reflexivity. }
  assert (Hu : vp_u32 props = negb (m =? 1)).
  { rewrite Hp. cbn [vp_u32]. unfold m, is_ascii, safe_u16_cutoff. rewrite negb_involutive. destruct (existsb _ dict); [ reflexivity | ]. destruct (_ <=? _); reflexivity. }
  assert (Hll : lenN (len_field props (lenN txt)) = if m =? 1 then 2 else 4).
  { unfold len_field. rewrite le_bytes_length, Hu. destruct (m =? 1); reflexivity. }
  assert (Hle : little_endian (len_field props (lenN txt)) = lenN txt).
  { rewrite little_endian_le. unfold len_field. apply le_value_bytes.
    unfold len_ok in Hlen. destruct (vp_u32 props); apply N.leb_le in Hlen.
    * change (256 ^ N.of_nat 4) with 4294967296. change (2 ^ 32 - 1) with 4294967295 in Hlen. lia.
    * change (256 ^ N.of_nat 2) with 65536. change (2 ^ 16 - 1) with 65535 in Hlen. lia. }
  assert (Ef : hdr ++ payload = [0x93] ++ lit "NUMPY" ++ [m; 0] ++ len_field props (lenN txt) ++ dict ++ repeatN 32 (reserve + pad) ++ [10] ++ payload).
  { rewrite Hhdr, Hver. unfold preamble. cbn [fst snd]. rewrite repeatN_add. unfold txt. app_norm. reflexivity. }
  rewrite Ef. apply (the_file d o sh reserve payload (descr d)).
  - now apply dtype_text_exact.
  - reflexivity.
  - exact Hpad.
  - reflexivity.
  - exact Hll.
  - apply le_bytes_ok.
  - now rewrite Hle.
  - rewrite Hle, Hll. rewrite bytes_before_eq, Hu in Hal. destruct (m =? 1); cbn [negb] in Hal; rewrite N.add_comm in Hal; exact Hal.
Qed.

Lemma header_of_file d o h shape sh reserve hdr props pad payload : wf_dtype d -> top_level d -> shape_text h o shape sh reserve ->
  header_of (dict_bytes_of d o sh ++ repeatN 32 reserve) hdr props pad -> finished_file d o h shape payload (hdr ++ payload).
Proof. intros Hwf Ht Hs Hh. exists sh, reserve. split; [ exact Hs | ]. eapply header_laid_out; eauto. Qed.

Lemma file_exact c t d o h vs s s' : wf_dtype d -> Forall (has_type t) vs -> lenN vs < 2 ^ 64 -> hint_ok h ->
  write_file c t d o h (output_kind h) vs s = (Ok tt, s') ->
  exists shape payload file, final_shape h o (lenN vs) = Some shape /\ encodings t d vs payload /\ finished_file d o h shape payload file
  /\ placed (sk_data s) (sk_pos s) file (sk_data s').
Proof.
  intros Hwf Hvs Hn Hh H. destruct (write_file_full c t d o h vs s s' Hwf Hvs Hn Hh H) as (shape & hdr & payload & H1 & H2 & H3 & _ & _ & Ht & Hs & props & pad & Hho).
  destruct (final_dict_text d o h (lenN vs) shape Hs H1) as (sh & reserve & Hsh & E). rewrite E in Hho.
  exists shape, payload, (hdr ++ payload). split; [ auto | split; [ auto | split; [ | auto ] ] ]. eapply header_of_file; eauto.
Qed.

(** * One file *)
Lemma shape_text_unique h o shape sh r sh' r' : shape_text h o shape sh r -> shape_text h o shape sh' r' -> sh = sh' /\ r = r'.
Proof.
  intros H1 H2. inversion H1; subst; inversion H2; subst;
  repeat match goal with H : listed _ _ _ |- _ => apply listed_unique in H | H : shortest_numeral _ _ |- _ => apply shortest_unique in H end; subst; auto.
Qed.
Lemma little_endian_inj a : forall b, lenN a = lenN b -> Forall (fun b => b < 256) a -> Forall (fun b => b < 256) b -> little_endian a = little_endian b -> a = b.
Proof.
  induction a as [ | x a IH ]; intros [ | y b ] Hl Ha Hb E; rewrite ?lenN_cons, ?lenN_nil in *; try lia; [ reflexivity | ].
  inversion Ha; inversion Hb; subst. cbn [little_endian] in E. assert (x = y) by lia. subst. f_equal. apply IH; auto; lia.
Qed.
Lemma laid_out_unique d o sh r payload f1 f2 : wf_dtype d -> laid_out d o sh r payload f1 -> laid_out d o sh r payload f2 -> f1 = f2.
Proof.
  intros Hwf [ dt dict k m len D E K M L B V A ] [ dt' dict' k' m' len' D' E' K' M' L' B' V' A' ].
  apply dtype_text_exact in D as (_ & ->); auto. apply dtype_text_exact in D' as (_ & ->); auto.
  rewrite <- E in E'. subst dict'.
  rewrite <- M in M'. subst m'. rewrite <- L in L'. assert (k' = k).
  { rewrite V, V' in *. rewrite L' in A'. clear - A A' K K'. set (x := 8 + lenN len + (lenN dict + r)) in *.
    replace (8 + lenN len + (lenN dict + r + k + 1)) with (x + k + 1) in A by lia. replace (8 + lenN len + (lenN dict + r + k' + 1)) with (x + k' + 1) in A' by lia. clearbody x. lia. }
  subst k'. rewrite (little_endian_inj len len'); auto. now rewrite V, V'.
Qed.
Lemma finished_unique d o h shape payload f1 f2 : wf_dtype d -> finished_file d o h shape payload f1 -> finished_file d o h shape payload f2 -> f1 = f2.
Proof.
  intros Hwf (sh & r & S & F) (sh' & r' & S' & F'). destruct (shape_text_unique _ _ _ _ _ _ _ S S') as (<- & <-). eapply laid_out_unique; eauto.
Qed.

Lemma machine_free c1 c2 t d o h vs s s1 s2 : wf_dtype d -> Forall (has_type t) vs -> lenN vs < 2 ^ 64 -> hint_ok h ->
  write_file c1 t d o h (output_kind h) vs s = (Ok tt, s1) -> write_file c2 t d o h (output_kind h) vs s = (Ok tt, s2) -> sk_data s1 = sk_data s2.
Proof.
  intros Hwf Hvs Hn Hh H1 H2.
  destruct (file_exact _ _ _ _ _ _ _ _ Hwf Hvs Hn Hh H1) as (sh1 & p1 & f1 & A1 & B1 & C1 & D1).
  destruct (file_exact _ _ _ _ _ _ _ _ Hwf Hvs Hn Hh H2) as (sh2 & p2 & f2 & A2 & B2 & C2 & D2).
  rewrite A1 in A2. apply Some_inj in A2 as <-. rewrite (encodings_fun _ _ _ _ _ B1 B2) in *. rewrite (finished_unique _ _ _ _ _ _ _ Hwf C1 C2) in *.
  unfold placed in *. congruence.
Qed.

(** * Different contents, different files *)
Lemma files_differ c c1 c2 t1 t2 d1 d2 o1 o2 h1 h2 vs1 vs2 s1 s2 s1' s2' :
  wf_dtype d1 -> Forall (has_type t1) vs1 -> lenN vs1 < 2 ^ 64 -> hint_ok h1 -> wf_dtype d2 -> Forall (has_type t2) vs2 -> lenN vs2 < 2 ^ 64 -> hint_ok h2 ->
  sizes_fit (c_usize_max c) d1 -> sizes_fit (c_usize_max c) d2 ->
  write_file c1 t1 d1 o1 h1 (output_kind h1) vs1 s1 = (Ok tt, s1') -> write_file c2 t2 d2 o2 h2 (output_kind h2) vs2 s2 = (Ok tt, s2') ->
  sk_data s1 = [] -> sk_pos s1 = 0 -> sk_data s2 = [] -> sk_pos s2 = 0 -> sk_data s1' = sk_data s2' ->
  d1 = d2 /\ o1 = o2 /\ final_shape h1 o1 (lenN vs1) = final_shape h2 o2 (lenN vs2)
  /\ exists payload, encodings t1 d1 vs1 payload /\ encodings t2 d2 vs2 payload.
Proof.
  intros W1 T1 N1 K1 W2 T2 N2 K2 Z1 Z2 H1 H2 E1 P1 E2 P2 E.
  assert (O1 : ~ has_object d1 /\ exists n, num_bytes c d1 = Some n).
  { clear - W1 Z1 H1. unfold write_file, sbind in H1. destruct (begin_ c1 t1 d1 o1 h1 (output_kind h1) s1) as ([ w | e | ], s) eqn:Eb; try discriminate.
    apply begin_ok_inv in Eb as (_ & dict & pad & hdr' & props & info & tw & _ & _ & _ & Hw & _). assert (A : accepts (c_usize_max c1) Writing t1 d1) by (apply writer_accepts; eauto).
    apply accepts_no_object in A. split; auto. exists (size d1). apply num_bytes_exact; auto. }
  assert (O2 : ~ has_object d2 /\ exists n, num_bytes c d2 = Some n).
  { clear - W2 Z2 H2. unfold write_file, sbind in H2. destruct (begin_ c2 t2 d2 o2 h2 (output_kind h2) s2) as ([ w | e | ], s) eqn:Eb; try discriminate.
    apply begin_ok_inv in Eb as (_ & dict & pad & hdr' & props & info & tw & _ & _ & _ & Hw & _). assert (A : accepts (c_usize_max c2) Writing t2 d2) by (apply writer_accepts; eauto).
    apply accepts_no_object in A. split; auto. exists (size d2). apply num_bytes_exact; auto. }
  destruct O1 as (_ & O1). destruct O2 as (_ & O2).
  destruct (write_file_ok _ _ _ _ _ _ _ _ W1 T1 N1 K1 H1) as (sh1 & hd1 & p1 & A1 & B1 & C1 & _ & F1).
  destruct (write_file_ok _ _ _ _ _ _ _ _ W2 T2 N2 K2 H2) as (sh2 & hd2 & p2 & A2 & B2 & C2 & _ & F2).
  assert (G : forall x y : bytes, placed [] 0 x y -> y = x).
  { intros x y ->. change (0 - lenN (@nil N)) with 0. change (repeatN 0 0) with (@nil N). unfold takeN, dropN. rewrite firstn_nil, skipn_nil. now rewrite app_nil_r. }
  rewrite E1, P1 in C1. rewrite E2, P2 in C2. apply G in C1, C2. rewrite E, C2 in C1.
  destruct (F1 c [] O1) as (h & R1 & D1 & S1 & Q1 & _). destruct (F2 c [] O2) as (h' & R2 & D2 & S2 & Q2 & _).
  rewrite !app_nil_r in *. rewrite <- C1, R2 in R1. apply pair_inj in R1 as (R1 & Rp). apply Ok_inj in R1 as <-.
  rewrite A1, A2. subst sh1 sh2 d1 d2 o1 o2 p2. repeat split; eauto.
Qed.
