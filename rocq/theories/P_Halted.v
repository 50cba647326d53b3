(** Proofs for C84. *)
From Verif Require Import M_Base M_Text M_TypeStr M_PyLit M_IO M_Header M_Read M_Serialize M_NpyReader M_Write M_Npz M_Sparse.
From Verif Require Import S_Text S_TypeStr S_DType S_Shape S_Header S_Elem S_Strings S_Reader S_Write S_DText S_File S_Outcome S_Npz S_Sparse S_SparseOut S_Stopped S_Archive S_Halted.
From Verif Require Import P_Base P_Text P_TypeStr P_PyLit P_Header P_IO P_Sink P_Shape P_WriteHeader P_Number P_Elem P_ReadOne P_WriteOne P_Codec P_Sizes P_Strings P_Parse P_Default P_ElemT P_Reader P_Array P_Writer P_WriteFile P_Session P_Whole P_Npz P_Sparse T_Text P_DText P_File P_Bytes P_Crash P_Counted P_SparseOut P_Open P_Stopped P_Refused.
Require Import ZifyBool ZifyNat ZifyN.
Open Scope N_scope.

(** * One file *)
(** Like [cuts], but the error may come after the last byte. *)
Definition trims (k : sink -> res unit * sink) : Prop :=
  forall s, sk_fuel s = None -> exists x w, k s = (x, put s w None) /\
  forall n, (exists m, n <= m + lenN w + 2 /\ k (fuelled s n) = (x, put s w (Some m)))
    \/ exists p q m, n < lenN w + 2 /\ w = p ++ q /\ k (fuelled s n) = (Err ESink, put s p (Some m)).
Lemma trims_bind {A} (m : sink -> res A * sink) k : cuts 0 sunk m -> (forall a s s', m s = (Ok a, s') -> trims (k a)) -> trims (sbind m k).
Proof.
  intros Hm Hk s Hs. destruct (Hm s Hs) as (x & w & E & HF). unfold sbind. rewrite E. destruct x as [ a | er | ].
  - destruct (Hk a _ _ E (put s w None) eq_refl) as (y & w2 & E2 & HF2). exists y, (w ++ w2). rewrite E2, put_put, lenN_app. split; [ reflexivity | ]. intros n.
    destruct (HF n) as [ (m' & L & E') | (x' & p & q & m' & L & -> & -> & Hq & E') ]; rewrite E'.
    + destruct (HF2 m') as [ (m2 & L2 & E2') | (p & q & m2 & L2 & -> & E2') ]; rewrite put_fuelled in E2'; rewrite E2', put_put; [ left; exists m2; split; [ lia | reflexivity ] | ].
      right. exists (w ++ p), q, m2. rewrite app_assoc. split; [ lia | auto ].
    + right. exists p, (q ++ w2), m'. rewrite app_assoc. split; [ lia | ]. auto.
  - exists (Err er), w. split; [ reflexivity | ]. intros n. destruct (HF n) as [ (m' & L & E') | (x' & p & q & m' & L & -> & -> & Hq & E') ]; rewrite E'; [ left; exists m'; split; [ lia | reflexivity ] | ].
    right. exists p, q, m'. split; [ lia | ]. auto.
  - exists Panic, w. split; [ reflexivity | ]. intros n. destruct (HF n) as [ (m' & L & E') | (x' & p & q & m' & L & -> & -> & Hq & E') ]; rewrite E'; [ left; exists m'; split; [ lia | reflexivity ] | ].
    right. exists p, q, m'. split; [ lia | ]. auto.
Qed.
Lemma finish_none w n s b : w_shape_info w = Known n -> exists x, finish w (put s b None) = (x, put s b None)
  /\ forall k, (exists k', k <= k' + 2 /\ finish w (put s b (Some k)) = (x, put s b (Some k'))) \/ k = 0 /\ finish w (put s b (Some k)) = (Err ESink, put s b (Some 0)).
Proof.
  intros H. unfold finish. assert (HD := fun k => drop_some w n s b k H). unfold finish_. rewrite H. destruct (negb (n =? w_num_items w)).
  - cbn [sret]. unfold sret. rewrite (drop_none w n s b H). eexists. split; [ reflexivity | ]. intros k. left. destruct (HD k) as (k' & L & ->). exists k'. split; [ lia | reflexivity ].
  - unfold sink_flush. rewrite tick_none by reflexivity. rewrite (drop_none w n s b H). exists (Ok tt). split; [ reflexivity | ]. intros k. unfold sink_tick. cbn [put sk_fuel sk_data sk_pos].
    destruct (N.eqb_spec k 0) as [ -> | Hk ].
    + right. split; [ reflexivity | ]. unfold drop_writer, finish_. rewrite H. destruct (negb _); [ reflexivity | ]. unfold sink_flush, sink_tick. cbn [put sk_fuel sk_data sk_pos]. reflexivity.
    + left. destruct (HD (k - 1)) as (k' & L & E). exists k'. split; [ lia | ]. unfold put in E |- *. now rewrite E.
Qed.
Lemma trims_file c t d o shape vs : trims (write_file c t d o (NDimensional shape) false vs).
Proof.
  unfold write_file. apply trims_bind; [ exact (cuts_begin c t d o shape) | ]. intros w s0 s0' Hb s Hs. apply (begin_known c t d o shape) in Hb as (k & Hk). unfold push_all_and_finish.
  destruct (cuts_extend c vs w s Hs) as ((x, w1) & b & E & HF). rewrite E. pose proof (extend_info c vs w s) as Hi. rewrite E in Hi. cbn [fst snd] in Hi.
  assert (K1 := eq_trans Hi Hk). assert (HX : exists y, (match x with Ok _ => finish w1 (put s b None) | _ => match drop_writer w1 (put s b None) with (Panic, s'') => (Panic, s'') | (_, s'') => (x, s'') end end) = (y, put s b None)
    /\ forall n, (exists m, n <= m + 2 /\ (match x with Ok _ => finish w1 (put s b (Some n)) | _ => match drop_writer w1 (put s b (Some n)) with (Panic, s'') => (Panic, s'') | (_, s'') => (x, s'') end end) = (y, put s b (Some m)))
        \/ n = 0 /\ (match x with Ok _ => finish w1 (put s b (Some n)) | _ => match drop_writer w1 (put s b (Some n)) with (Panic, s'') => (Panic, s'') | (_, s'') => (x, s'') end end) = (Err ESink, put s b (Some 0))).
  { destruct x as [ [] | e | ]; [ apply (finish_none w1 k s b K1) | exists (Err e) | exists Panic ]; rewrite (drop_none w1 k s b K1); (split; [ reflexivity | ]); intros n; left;
      destruct (drop_some w1 k s b n K1) as (m & L & ->); exists m; (split; [ lia | reflexivity ]). }
  destruct HX as (y & EY & HY). exists y, b. split; [ destruct x; exact EY | ]. intros n.
  pose proof (extend_info c vs w (fuelled s n)) as Hi'. destruct (HF n) as [ (m & L & E2) | ((x', w2) & p & q & m & L & Hbad & Hw & Hq & E2) ]; rewrite E2 in *; cbn [fst snd] in *.
  - destruct (HY m) as [ (m' & L3 & E3) | (-> & E3) ].
    + left. exists m'. split; [ lia | destruct x; exact E3 ].
    + right. exists b, [], 0. rewrite app_nil_r. split; [ lia | ]. split; [ reflexivity | destruct x; exact E3 ].
  - red in Hbad. subst x'. destruct (drop_some w2 k s p m (eq_trans Hi' Hk)) as (m' & L3 & E3). rewrite E3. right. exists p, q, m'. split; [ lia | auto ].
Qed.
Lemma finished_is_dropped c t d o shape vs s : wf_dtype d -> strings_fit (c_usize_max c) d -> top_level d -> accepts (c_usize_max c) Writing t d -> Forall (has_type t) vs ->
  Forall (fun v => exists b, encode t d v = Some b) vs -> lenN vs < 2 ^ 64 ->
  Forall (fun n => n < 2 ^ 64) shape -> no_overflow shape -> lenN vs = count shape -> short_header d (NDimensional shape) -> sk_fuel s = None ->
  write_file c t d o (NDimensional shape) false vs s = extend_and_drop c t d o shape vs s.
Proof.
  intros Hwf Hsf Ht Ha Hv He Hn H64 Hno Hc Hs Hf. destruct (fixed_succeeds c t d o shape vs s Hwf Hsf Ht Ha Hv He Hn H64 Hno Hc Hs Hf) as (s' & H). rewrite H. symmetry.
  destruct (cuts_array c t d o shape vs s Hf) as (x & b & E & _). rewrite E. destruct (trims_file c t d o shape vs s Hf) as (x' & b' & E' & _). rewrite H in E'. apply pair_inj in E' as (_ & ->).
  revert E H. unfold write_file, extend_and_drop, begin_nd, sbind. destruct (begin_ c t d o (NDimensional shape) false s) as ([ w | e | ], s1) eqn:Eb; try discriminate.
  unfold push_all_and_finish. assert (Hk := begin_known c t d o shape s w s1 Eb). destruct Hk as (k & Hk).
  destruct (cuts_begin c t d o shape s Hf) as (y & b1 & Eb' & _). unfold begin_nd in Eb'. rewrite Eb in Eb'. apply pair_inj in Eb' as (_ & ->).
  destruct (cuts_extend c vs w (put s b1 None) eq_refl) as ((x2, w2) & b2 & E2 & _). rewrite E2. pose proof (extend_info c vs w (put s b1 None)) as Hi. rewrite E2 in Hi. cbn [fst snd] in Hi.
  rewrite (drop_none w2 k (put s b1 None) b2 (eq_trans Hi Hk)). intros E H.
  destruct x2 as [ [] | e | ]; [ | discriminate H | discriminate H ].
  destruct (finish_none w2 k (put s b1 None) b2 (eq_trans Hi Hk)) as (y2 & E3 & _). rewrite E3 in H. apply pair_inj in H as (-> & H). rewrite H in E. now apply pair_inj in E as (<- & <-).
Qed.

(** * One array *)
Lemma save_trim c x a : exists r bs, save c x {| nz_entries := a; nz_fuel := None |} = (r, {| nz_entries := a ++ [(file_name_from_array_name (sv_name x), bs)]; nz_fuel := None |}) /\
  forall n, (exists m, n <= m + (1 + lenN bs + 2) /\ save c x {| nz_entries := a; nz_fuel := Some n |} = (r, {| nz_entries := a ++ [(file_name_from_array_name (sv_name x), bs)]; nz_fuel := Some m |}))
    \/ n < 1 + lenN bs + 2 /\ ((exists m, save c x {| nz_entries := a; nz_fuel := Some n |} = (Err ESink, {| nz_entries := a; nz_fuel := Some m |}))
      \/ exists p q m, bs = p ++ q /\ (q = [] -> sv_ending x = Finished) /\ save c x {| nz_entries := a; nz_fuel := Some n |} = (Err ESink, {| nz_entries := a ++ [(file_name_from_array_name (sv_name x), p)]; nz_fuel := Some m |})).
Proof.
  assert (HP : forall l f, sk_data (put empty_sink l f) = l) by (intros l f; rewrite put_end by reflexivity; reflexivity).
  unfold save. set (k := match sv_ending x with Finished => _ | Dropped => _ end).
  assert (HK : exists r w, k empty_sink = (r, put empty_sink w None) /\ forall n, (exists m, n <= m + lenN w + 2 /\ k (fuelled empty_sink n) = (r, put empty_sink w (Some m)))
    \/ exists p q m, n < lenN w + 2 /\ w = p ++ q /\ (q = [] -> sv_ending x = Finished) /\ k (fuelled empty_sink n) = (Err ESink, put empty_sink p (Some m))).
  { subst k. destruct (sv_ending x).
    - destruct (trims_file c (sv_type x) (sv_dtype x) (sv_order x) (sv_shape x) (sv_vals x) empty_sink eq_refl) as (r & w & E & HF). exists r, w. split; [ exact E | ]. intros n. destruct (HF n) as [ H | (p & q & m & L & Hw & H) ]; [ auto | right ]. exists p, q, m. auto.
    - destruct (cuts_array c (sv_type x) (sv_dtype x) (sv_order x) (sv_shape x) (sv_vals x) empty_sink eq_refl) as (r & w & E & HF). exists r, w. split; [ exact E | ].
      intros n. destruct (HF n) as [ (m & L & H) | (x' & p & q & m & L & -> & Hw & Hq & H) ]; [ left; exists m; split; [ lia | auto ] | right ]. exists p, q, m. split; [ lia | ]. split; [ auto | ]. split; [ contradiction | auto ]. }
  clearbody k. destruct HK as (r & w & E & HF). exists r, w.
  split; [ rewrite (array_none _ _ {| nz_entries := a; nz_fuel := None |} _ _ eq_refl E); now rewrite HP | ].
  intros n. unfold npz_array, sink_tick. cbn [sk_fuel sk_data sk_pos nz_fuel nz_entries]. destruct (N.eqb_spec n 0) as [ -> | Hn ].
  - right. split; [ lia | ]. left. exists 0. reflexivity.
  - change {| sk_data := []; sk_pos := 0; sk_fuel := Some (n - 1) |} with (fuelled empty_sink (n - 1)).
    destruct (HF (n - 1)) as [ (m & L & E') | (p & q & m & L & Hw & Hq & E') ]; rewrite E', HP; [ left; exists m; split; [ lia | reflexivity ] | right ].
    split; [ lia | ]. right. exists p, q, m. auto.
Qed.
(** The bytes of an array that can be written. *)
Lemma saved_whole c x a : is_array x -> can_write c x ->
  exists bs, save c x {| nz_entries := a; nz_fuel := None |} = (Ok tt, {| nz_entries := a ++ [(file_name_from_array_name (sv_name x), bs)]; nz_fuel := None |})
  /\ forall c', sizes_fit (c_usize_max c') (sv_dtype x) -> strings_fit (c_usize_max c') (sv_dtype x) -> fragile c' bs /\ mild c' bs.
Proof.
  intros Hx Hw. pose proof (array_len x Hx) as Hl. destruct Hx as (Hwf & Hv & H64 & Hno & Hc). destruct Hw as (Ht & Hsf & Ha & He & Hs).
  destruct (P_Whole.all_encodings _ _ _ He) as (payload & Hp). destruct (product_defined c (sv_shape x) (fun _ => Hno)) as (n & Hn).
  destruct (fixed_exact c _ _ (sv_order x) _ _ payload n Hwf Hsf Ht Ha Hv Hl H64 Hn Hs Hp) as (file & E & _ & Hf & Hb). specialize (Hf Hno).
  exists file. split.
  - unfold save. assert (E2 : (match sv_ending x with
     | Finished => write_file c (sv_type x) (sv_dtype x) (sv_order x) (NDimensional (sv_shape x)) false (sv_vals x)
     | Dropped => extend_and_drop c (sv_type x) (sv_dtype x) (sv_order x) (sv_shape x) (sv_vals x)
     end) empty_sink = (Ok tt, {| sk_data := file; sk_pos := lenN file; sk_fuel := None |})).
    { destruct (sv_ending x); [ | exact E ]. rewrite finished_is_dropped; auto. }
    rewrite (array_none _ _ {| nz_entries := a; nz_fuel := None |} _ _ eq_refl E2). reflexivity.
  - intros c' Hz Hst. assert (HN : exists n, num_bytes c' (sv_dtype x) = Some n) by (exists (size (sv_dtype x)); apply num_bytes_exact; split; [ eapply accepts_no_object; eauto | auto ]).
    split; [ | eapply file_mild; eauto ]. intros p q t f src items Ep Hq Hnew. eapply cut_file; [ exact Hb | exact Hf | exact HN | exact Hst | | exact Ep | exact Hq | exact Hnew ].
    rewrite (encodings_len _ _ _ _ Ha Hv _ Hp), Hc. lia.
Qed.

(** * Any number of arrays *)
Lemma enough_cons e a : enough (e :: a) = 1 + lenN (snd e) + 2 + enough a.
Proof. reflexivity. Qed.
Lemma halted_cons x e l whole lf : halted l whole lf -> halted (x :: l) (e :: whole) (e :: lf).
Proof.
  intros [ done next rest -> | l1 y l2 done name part missing rest -> -> Hlen Hm ].
  - apply (halted_between _ _ (e :: done) next rest). reflexivity.
  - apply (halted_within _ _ (x :: l1) y l2 (e :: done) name part missing rest); [ reflexivity | reflexivity | cbn; now rewrite Hlen | exact Hm ].
Qed.
Lemma any_halted c l : forall a, exists r new,
  save_all c l {| nz_entries := a; nz_fuel := None |} = (r, {| nz_entries := a ++ new; nz_fuel := None |})
  /\ forall n, (exists k, save_all c l {| nz_entries := a; nz_fuel := Some n |} = (r, {| nz_entries := a ++ new; nz_fuel := Some k |}) /\ n <= k + enough new)
    \/ n < enough new /\ exists lf k, halted l new lf /\ save_all c l {| nz_entries := a; nz_fuel := Some n |} = (Err ESink, {| nz_entries := a ++ lf; nz_fuel := Some k |}).
Proof.
  induction l as [ | x l IH ]; intros a; [ exists (Ok tt), []; rewrite app_nil_r; split; [ reflexivity | ]; intros n; left; exists n; split; [ reflexivity | lia ] | ].
  cbn [save_all]. unfold zbind. destruct (save_trim c x a) as (r & bs & E & HF). set (e := (file_name_from_array_name (sv_name x), bs)) in *.
  assert (HX : forall new n, n < 1 + lenN bs + 2 -> forall lf, (lf = [] \/ exists p q, bs = p ++ q /\ (q = [] -> sv_ending x = Finished) /\ lf = [(file_name_from_array_name (sv_name x), p)]) ->
    n < enough (e :: new) /\ halted (x :: l) (e :: new) lf).
  { intros new n L lf Hlf. rewrite enough_cons. change (snd e) with bs. split; [ lia | ]. destruct Hlf as [ -> | (p & q & Hb & Hq & ->) ].
    - apply (halted_between _ _ [] e new). reflexivity.
    - apply (halted_within _ _ [] x l [] _ _ q new); [ reflexivity | unfold e; rewrite Hb; reflexivity | reflexivity | exact Hq ]. }
  destruct r as [ [] | er | ].
  - destruct (IH (a ++ [e])) as (r2 & new & E2 & HF2). exists r2, (e :: new). rewrite E, E2, <- app_assoc. split; [ reflexivity | ]. intros n.
    destruct (HF n) as [ (m & L & E3) | (L & [ (m & E3) | (p & q & m & Hb & Hq & E3) ]) ]; rewrite E3.
    + rewrite enough_cons. change (snd e) with bs. destruct (HF2 m) as [ (k & E4 & L4) | (L4 & lf & k & Hh & E4) ]; rewrite E4, <- app_assoc; [ left; exists k; split; [ reflexivity | lia ] | right ].
      split; [ lia | ]. exists (e :: lf), k. split; [ now apply halted_cons | reflexivity ].
    + right. destruct (HX new n L [] (or_introl eq_refl)) as (HL & HH). split; [ exact HL | ]. exists [], m. rewrite app_nil_r. auto.
    + right. destruct (HX new n L _ (or_intror (ex_intro _ p (ex_intro _ q (conj Hb (conj Hq eq_refl)))))) as (HL & HH). split; [ exact HL | ]. eexists _, m. split; [ exact HH | reflexivity ].
  - exists (Err er), [e]. rewrite E. split; [ reflexivity | ]. intros n. destruct (HF n) as [ (m & L & E3) | (L & [ (m & E3) | (p & q & m & Hb & Hq & E3) ]) ]; rewrite E3.
    + left. exists m. split; [ reflexivity | ]. unfold enough. cbn [fold_right]. change (snd e) with bs. lia.
    + right. destruct (HX [] n L [] (or_introl eq_refl)) as (HL & HH). split; [ exact HL | ]. exists [], m. rewrite app_nil_r. auto.
    + right. destruct (HX [] n L _ (or_intror (ex_intro _ p (ex_intro _ q (conj Hb (conj Hq eq_refl)))))) as (HL & HH). split; [ exact HL | ]. eexists _, m. split; [ exact HH | reflexivity ].
  - exists Panic, [e]. rewrite E. split; [ reflexivity | ]. intros n. destruct (HF n) as [ (m & L & E3) | (L & [ (m & E3) | (p & q & m & Hb & Hq & E3) ]) ]; rewrite E3.
    + left. exists m. split; [ reflexivity | ]. unfold enough. cbn [fold_right]. change (snd e) with bs. lia.
    + right. destruct (HX [] n L [] (or_introl eq_refl)) as (HL & HH). split; [ exact HL | ]. exists [], m. rewrite app_nil_r. auto.
    + right. destruct (HX [] n L _ (or_intror (ex_intro _ p (ex_intro _ q (conj Hb (conj Hq eq_refl)))))) as (HL & HH). split; [ exact HL | ]. eexists _, m. split; [ exact HH | reflexivity ].
Qed.
Lemma all_halted c l : Forall is_array l -> Forall (can_write c) l -> forall a, exists new,
  save_all c l {| nz_entries := a; nz_fuel := None |} = (Ok tt, {| nz_entries := a ++ new; nz_fuel := None |})
  /\ forall n, (exists k, save_all c l {| nz_entries := a; nz_fuel := Some n |} = (Ok tt, {| nz_entries := a ++ new; nz_fuel := Some k |}) /\ n <= k + enough new)
    \/ n < enough new /\ exists lf k, halted l new lf /\ save_all c l {| nz_entries := a; nz_fuel := Some n |} = (Err ESink, {| nz_entries := a ++ lf; nz_fuel := Some k |}).
Proof.
  intros Hl Hw a. destruct (any_halted c l a) as (r & new & E & HF). destruct (save_all_succeeds c l {| nz_entries := a; nz_fuel := None |} Hl Hw eq_refl) as (z' & E'). rewrite E in E'. apply pair_inj in E' as (-> & _).
  exists new. auto.
Qed.

(** * Reading what was left *)
Lemma save_all_split c l1 l2 z : save_all c (l1 ++ l2) z = (let% _u := save_all c l1 in save_all c l2) z.
Proof.
  revert z. induction l1 as [ | x l1 IH ]; intros z; [ reflexivity | ]. cbn [app save_all]. unfold zbind in *. destruct (save c x z) as ([ [] | | ], z1); [ apply IH | reflexivity | reflexivity ].
Qed.
Lemma save_all_whole c l : Forall is_array l -> Forall (can_write c) l -> forall a, exists new, save_all c l {| nz_entries := a; nz_fuel := None |} = (Ok tt, {| nz_entries := a ++ new; nz_fuel := None |})
  /\ List.length new = List.length l.
Proof.
  induction l as [ | x l IH ]; intros Hl Hw a; [ exists []; rewrite app_nil_r; auto | ]. apply Forall_cons_iff in Hl as (Hx & Hl). apply Forall_cons_iff in Hw as (Hwx & Hw).
  destruct (saved_whole c x a Hx Hwx) as (bs & E & _). destruct (IH Hl Hw (a ++ [(file_name_from_array_name (sv_name x), bs)])) as (new & E2 & HL). exists ((file_name_from_array_name (sv_name x), bs) :: new). cbn [save_all]. unfold zbind. rewrite E, E2, <- app_assoc. cbn [List.length]. auto.
Qed.
(** What is left is what saving a first part of the list leaves, and after it at most a beginning of the next array. *)
Lemma halted_split c l a new lf : Forall is_array l -> Forall (can_write c) l -> save_all c l {| nz_entries := a; nz_fuel := None |} = (Ok tt, {| nz_entries := a ++ new; nz_fuel := None |}) -> halted l new lf ->
  exists l1 x l2 z1, l = l1 ++ x :: l2 /\ save_all c l1 {| nz_entries := a; nz_fuel := None |} = (Ok tt, z1)
  /\ (a ++ lf = nz_entries z1 \/ exists p q, a ++ lf = nz_entries z1 ++ [(file_name_from_array_name (sv_name x), p)] /\ (q = [] -> sv_ending x = Finished)
     /\ save c x z1 = (Ok tt, {| nz_entries := nz_entries z1 ++ [(file_name_from_array_name (sv_name x), p ++ q)]; nz_fuel := None |})).
Proof.
  intros Hl Hw E Hh.
  assert (HS : forall l1 x l2 done e rest, l = l1 ++ x :: l2 -> new = done ++ e :: rest -> List.length l1 = List.length done ->
    save_all c l1 {| nz_entries := a; nz_fuel := None |} = (Ok tt, {| nz_entries := a ++ done; nz_fuel := None |})
    /\ save c x {| nz_entries := a ++ done; nz_fuel := None |} = (Ok tt, {| nz_entries := (a ++ done) ++ [e]; nz_fuel := None |}) /\ fst e = file_name_from_array_name (sv_name x)).
  { intros l1 x l2 done e rest -> -> Hlen. apply Forall_app in Hl as (Hl1 & Hl2). apply Forall_app in Hw as (Hw1 & Hw2). apply Forall_cons_iff in Hl2 as (Hx & Hl2). apply Forall_cons_iff in Hw2 as (Hwx & Hw2).
    destruct (save_all_whole c l1 Hl1 Hw1 a) as (n1 & E1 & L1). destruct (saved_whole c x (a ++ n1) Hx Hwx) as (bs & Ex & _). destruct (save_all_whole c l2 Hl2 Hw2 ((a ++ n1) ++ [(file_name_from_array_name (sv_name x), bs)])) as (n2 & E2 & _).
    rewrite save_all_split in E. unfold zbind in E. rewrite E1 in E. cbn [save_all] in E. unfold zbind in E. rewrite Ex, E2 in E. apply pair_inj in E as (_ & E). injection E as E. rewrite <- !app_assoc in E. apply app_inv_head in E.
    assert (HE : n1 = done /\ [(file_name_from_array_name (sv_name x), bs)] ++ n2 = e :: rest).
    { rewrite <- L1 in Hlen. clear - E Hlen. revert done Hlen E. induction n1 as [ | y n1 IH ]; intros [ | y' done ] Hlen E; try discriminate; [ auto | ]. injection E as -> E. injection Hlen as Hlen. destruct (IH done Hlen E) as (-> & H). auto. }
    destruct HE as (-> & HE). injection HE as <- _. auto. }
  destruct Hh as [ done next rest Hn | l1 x l2 done name part missing rest Hl1 Hn Hlen Hm ].
  - assert (Hlen : List.length new = List.length l). { destruct (save_all_whole c l Hl Hw a) as (new' & E' & HL). rewrite E in E'. apply pair_inj in E' as (_ & E'). injection E' as E'. apply app_inv_head in E'. now subst. }
    assert (Hsp : exists l1 x l2, l = l1 ++ x :: l2 /\ List.length l1 = List.length done).
    { rewrite Hn, app_length in Hlen. cbn [List.length] in Hlen. exists (firstn (List.length done) l). destruct (skipn (List.length done) l) as [ | x l2 ] eqn:Es.
      - apply (f_equal (@List.length saved)) in Es. rewrite skipn_length in Es. cbn in Es. lia.
      - exists x, l2. rewrite <- Es, firstn_skipn. split; [ reflexivity | ]. rewrite firstn_length. lia. }
    destruct Hsp as (l1 & x & l2 & Hl1 & Hlen1). destruct (HS _ _ _ _ _ _ Hl1 Hn Hlen1) as (E1 & _). exists l1, x, l2. eexists. split; [ exact Hl1 | ]. split; [ exact E1 | ]. left. reflexivity.
  - destruct (HS _ _ _ _ _ _ Hl1 Hn Hlen) as (E1 & E2 & E3). cbn [fst] in E3. exists l1, x, l2. eexists. split; [ exact Hl1 | ]. split; [ exact E1 | ]. right. exists part, missing. cbn [nz_entries]. rewrite <- E3, app_assoc. auto.
Qed.
Lemma cut_lookup c' bs p q a name : fragile c' bs -> mild c' bs -> bs = p ++ q -> q <> [] ->
  by_name c' (a ++ [(file_name_from_array_name name, p)]) name <> Panic
  /\ by_name c' (a ++ [(file_name_from_array_name name, p)]) name <> Ok None
  /\ forall f, by_name c' (a ++ [(file_name_from_array_name name, p)]) name = Ok (Some f) -> forall t vs, fst (npy_into_vec c' t f) <> Ok vs.
Proof.
  intros Hf Hm -> Hq. unfold by_name. rewrite find_app, find_one, eqb_list_refl.
  assert (HN : fst (npy_new c' {| cur_data := p; cur_pos := 0 |}) <> Panic).
  { intros HP. apply (prefix_no_panic c' p q Hm). pose proof (cursor_run c' [] p) as Hr. cbn [app] in Hr. change (lenN []) with 0 in Hr.
    destruct (run (read_and_interpret c') p) as (x, rest) eqn:E0. rewrite Hr in HP. apply open_panic_exact; [ | rewrite E0; destruct x; try discriminate HP; reflexivity ]. destruct Hm as (Hb & _). now apply Forall_app in Hb as (Hb & _). }
  split; [ | split ].
  - destruct (fst (npy_new c' _)); [ discriminate | discriminate | congruence ].
  - destruct (fst (npy_new c' _)); discriminate.
  - intros f E t vs. destruct (npy_new c' _) as (r, src) eqn:En. cbn [fst] in E. apply bind_ok in E as (g & -> & E). apply Ok_inj in E. injection E as <-. eapply Hf; eauto.
Qed.
Lemma no_budget_back c l : forall a z1 k, save_all c l {| nz_entries := a; nz_fuel := None |} = (Ok tt, z1) -> nz_fuel z1 <> Some k.
Proof.
  induction l as [ | x l IH ]; intros a z1 k H; cbn [save_all] in H; [ apply pair_inj in H as (_ & <-); discriminate | ].
  unfold zbind in H. destruct (save_trim c x a) as (r & bs & E & _). rewrite E in H. destruct r as [ [] | | ]; try discriminate. eapply IH, H.
Qed.
Lemma after_failure c c' l a n r z' : Forall is_array l -> Forall (can_write c) l -> save_all c l {| nz_entries := a; nz_fuel := Some n |} = (r, z') -> r <> Ok tt ->
  r = Err ESink /\ exists done x rest z1, l = done ++ x :: rest /\ save_all c done {| nz_entries := a; nz_fuel := None |} = (Ok tt, z1)
  /\ (forall name, name <> sv_name x -> by_name c' (nz_entries z') name = by_name c' (nz_entries z1) name)
  /\ (by_name c' (nz_entries z') (sv_name x) = by_name c' (nz_entries z1) (sv_name x)
      \/ (sizes_fit (c_usize_max c') (sv_dtype x) -> strings_fit (c_usize_max c') (sv_dtype x) ->
          by_name c' (nz_entries z') (sv_name x) <> Panic /\ by_name c' (nz_entries z') (sv_name x) <> Ok None
          /\ forall f, by_name c' (nz_entries z') (sv_name x) = Ok (Some f) -> forall t vs, fst (npy_into_vec c' t f) <> Ok vs)
      \/ sv_ending x = Finished /\ (can_read c' x ->
          found c' (nz_entries z') (sv_name x) (sv_type x) (sv_dtype x) (sv_order x) (sv_shape x) (map (read_back (sv_type x) (sv_dtype x)) (sv_vals x)))).
Proof.
  intros Hl Hw H Hr. destruct (all_halted c l Hl Hw a) as (new & E & HF). destruct (HF n) as [ (k & E' & _) | (_ & lf & k & Hh & E') ]; rewrite H in E'; apply pair_inj in E' as (-> & ->); [ contradiction | ].
  split; [ reflexivity | ]. destruct (halted_split c l a new lf Hl Hw E Hh) as (l1 & x & l2 & z1 & -> & E1 & HE). exists l1, x, l2, z1. split; [ reflexivity | ]. split; [ exact E1 | ]. cbn [nz_entries].
  destruct HE as [ -> | (p & q & -> & Hq & Es) ]; [ auto | ]. split.
  - intros name Hn. unfold by_name. rewrite find_app, find_one. replace (eqb_list _ _) with false; [ reflexivity | ]. symmetry. apply Bool.not_true_iff_false. intros He. apply eqb_list_eq, file_name_inj in He. congruence.
  - right. apply Forall_app in Hl as (_ & Hl). apply Forall_cons_iff in Hl as (Hx & _). apply Forall_app in Hw as (_ & Hw). apply Forall_cons_iff in Hw as (Hwx & _). destruct q as [ | b q ].
    + right. split; [ auto | ]. intros Hc. rewrite app_nil_r in Es. pose proof (save_ok c x _ _ Hx Es) as (bs & Eb & HR). cbn [nz_entries] in Eb. apply app_inv_head in Eb. injection Eb as ->.
      eapply by_name_found; [ | exact (HR c' Hc) ]. now rewrite find_app, find_one, eqb_list_refl.
    + left. intros Hz Hst. assert (Hz1 : z1 = {| nz_entries := nz_entries z1; nz_fuel := None |}).
      { destruct z1 as (a1, f1). cbn [nz_entries]. f_equal. unfold save, npz_array, sink_tick in Es. cbn [nz_fuel sk_fuel] in Es. destruct f1 as [ k1 | ]; [ exfalso | reflexivity ].
        apply (no_budget_back c l1 a _ k1 E1). reflexivity. }
      rewrite Hz1 in Es. destruct (saved_whole c x (nz_entries z1) Hx Hwx) as (bs & E2 & HB). cbn [nz_entries] in Es. rewrite E2 in Es. apply pair_inj in Es as (_ & Es). injection Es as Es. apply app_inv_head in Es. injection Es as Es.
      destruct (HB c' Hz Hst) as (Hf & Hm). eapply cut_lookup; [ exact Hf | exact Hm | exact Es | discriminate ].
Qed.
Lemma kept c c' l a n r z' : Forall is_array l -> Forall (can_write c) l -> NoDup (map sv_name l) -> save_all c l {| nz_entries := a; nz_fuel := Some n |} = (r, z') -> r <> Ok tt ->
  exists done x rest, l = done ++ x :: rest
  /\ Forall (fun y => can_read c' y -> found c' (nz_entries z') (sv_name y) (sv_type y) (sv_dtype y) (sv_order y) (sv_shape y) (map (read_back (sv_type y) (sv_dtype y)) (sv_vals y))) done
  /\ forall name, ~ In name (map sv_name (done ++ [x])) -> by_name c' (nz_entries z') name = by_name c' a name.
Proof.
  intros Hl Hw ND H Hr. destruct (after_failure c c' l a n r z' Hl Hw H Hr) as (_ & l1 & x & l2 & z1 & -> & E1 & Hn & _). exists l1, x, l2. split; [ reflexivity | ].
  apply Forall_app in Hl as (Hl1 & _). rewrite map_app in ND. cbn [map] in ND. apply NoDup_remove in ND as (ND & Nx). split.
  - apply Forall_forall. intros y Hy Hc. apply in_split in Hy as (b & e & ->). destruct (lookup_saved c c' b y e _ z1 Hl1 E1) as ((f & Ef & Hf) & _); [ | exact Hc | ].
    + rewrite map_app in ND. cbn [map] in ND. rewrite <- app_assoc in ND. apply NoDup_remove in ND as (_ & Ny). intros Hi. apply Ny. rewrite !in_app_iff. auto.
    + exists f. rewrite Hn; [ auto | ]. intros Ey. apply Nx. rewrite <- Ey, map_app, !in_app_iff. cbn [map In]. auto.
  - intros name Hi. rewrite map_app, in_app_iff in Hi. cbn [map In] in Hi. rewrite Hn by (intros ->; apply Hi; auto). exact (lookup_other c c' l1 _ z1 name Hl1 E1 (fun H => Hi (or_introl H))).
Qed.
