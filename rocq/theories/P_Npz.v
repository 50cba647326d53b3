(** Archives: names, lookup, saving. *)
From Coq Require Import Permutation.
From Verif Require Import M_Base M_Text M_TypeStr M_PyLit M_IO M_Header M_Read M_Serialize M_NpyReader M_Write M_Npz.
From Verif Require Import S_TypeStr S_DType S_Shape S_Header S_Elem S_Strings S_Reader S_Write S_Npz
  P_Base P_Text P_TypeStr P_PyLit P_Header P_IO P_Sink P_Shape P_WriteHeader P_Number P_Elem P_ReadOne P_WriteOne P_Codec P_Sizes P_Strings P_Parse P_Default P_ElemT P_Reader P_Array P_Writer P_WriteFile P_Session P_Whole.
Open Scope N_scope.

(** * Names *)
Lemma cut_no_nul s : ~ In 0 s -> cut_at_nul s = s.
Proof.
  induction s as [ | c s IH ]; intros H; [ reflexivity | ]. cbn [cut_at_nul]. destruct (N.eqb_spec c 0) as [ -> | ]; [ elim H; now left | ].
  rewrite IH; [ reflexivity | ]. intros Hi. apply H. now right.
Qed.
Lemma cut_spec s : exists rest, s = cut_at_nul s ++ rest /\ ~ In 0 (cut_at_nul s) /\ (rest = [] \/ exists r, rest = 0 :: r).
Proof.
  induction s as [ | c s (rest & E & H & Hr) ]; [ exists []; cbn; auto | ]. cbn [cut_at_nul]. destruct (N.eqb_spec c 0) as [ -> | Hc ].
  - exists (0 :: s). split; [ reflexivity | split; [ intros [] | eauto ] ].
  - exists rest. split; [ cbn [app]; now rewrite <- E | ]. split; [ intros [ | Hi ]; [ congruence | auto ] | auto ].
Qed.
Lemma cut_app file rest : ~ In 0 file -> (rest = [] \/ exists r, rest = 0 :: r) -> cut_at_nul (file ++ rest) = file.
Proof.
  intros H Hr. induction file as [ | c s IH ]; cbn [app].
  - destruct Hr as [ -> | (r & ->) ]; reflexivity.
  - cbn [cut_at_nul]. destruct (N.eqb_spec c 0) as [ -> | ]; [ elim H; now left | ]. f_equal. apply IH. intros Hi. apply H. now right.
Qed.
Lemma ends_with_spec suf s : ends_with suf s = true <-> exists pre, s = pre ++ suf.
Proof.
  unfold ends_with. rewrite andb_true_iff, eqb_list_eq. split.
  - intros (H1 & H2). exists (takeN (lenN s - lenN suf) s). rewrite <- (takeN_dropN (lenN s - lenN suf) s) at 1. now rewrite H2.
  - intros (pre & ->). rewrite lenN_app. split; [ lia | ]. apply dropN_app. lia.
Qed.
Lemma name_exact path name : array_name_from_file_name path = Some name <->
  exists rest, path = name ++ lit ".npy" ++ rest /\ ~ In 0 name /\ (rest = [] \/ exists r, rest = 0 :: r).
Proof.
  unfold array_name_from_file_name. split.
  - destruct (cut_spec path) as (rest & E & H0 & Hr). destruct (ends_with _ _) eqn:Ee; [ | discriminate ]. intros H. apply Some_inj in H.
    apply ends_with_spec in Ee as (pre & Ee). rewrite Ee in H, H0, E. rewrite lenN_app in H. change (lenN (lit ".npy")) with 4 in H.
    rewrite takeN_app in H by lia. subst pre. exists rest. rewrite app_assoc. split; [ auto | split; [ | auto ] ]. intros Hi. apply H0. apply in_or_app. auto.
  - intros (rest & -> & H0 & Hr). rewrite app_assoc. rewrite cut_app; [ | | auto ].
    2:{ intros Hi. apply in_app_or in Hi as [ Hi | Hi ]; [ auto | ]. vm_compute in Hi. intuition discriminate. }
    replace (ends_with (lit ".npy") (name ++ lit ".npy")) with true by (symmetry; apply ends_with_spec; eauto).
    rewrite lenN_app. change (lenN (lit ".npy")) with 4. f_equal. apply takeN_app. lia.
Qed.
Lemma name_round_trip name : ~ In 0 name -> array_name_from_file_name (file_name_from_array_name name) = Some name.
Proof. intros H. apply name_exact. exists []. unfold file_name_from_array_name. rewrite app_nil_r. auto. Qed.
Lemma file_name_inj a b : file_name_from_array_name a = file_name_from_array_name b -> a = b.
Proof. apply app_inv_tail. Qed.
Lemma no_suffix_no_name path : (forall name, path <> name ++ lit ".npy") -> ~ In 0 path -> array_name_from_file_name path = None.
Proof.
  intros H H0. destruct (array_name_from_file_name path) as [ n | ] eqn:E; [ | reflexivity ]. apply name_exact in E as (rest & -> & _ & [ -> | (r & ->) ]).
  - elim (H n). now rewrite app_nil_r.
  - elim H0. rewrite !in_app_iff. right. right. now left.
Qed.
Lemma dec_z_inj a b : dec_z a = dec_z b -> a = b.
Proof.
  assert (Hm : forall p n, lit "-" ++ dec (Npos p) <> dec n).
  { intros p n E. pose proof (dec_digits n) as Hd. rewrite <- E in Hd. apply Forall_inv in Hd. discriminate Hd. }
  unfold dec_z. destruct a as [ | a | a ], b as [ | b | b ]; intros E; try reflexivity; try (now elim (Hm _ _ E)); try (now elim (Hm _ _ (eq_sym E))).
  - apply dec_inj in E. lia.
  - apply dec_inj in E. lia.
  - apply dec_inj in E. lia.
  - apply app_inv_head, dec_inj in E. congruence.
Qed.

(** * Lookup *)
Lemma find_app file a b : zip_find file (a ++ b) = match zip_find file b with Some x => Some x | None => zip_find file a end.
Proof.
  induction a as [ | (f, bs) a IH ]; cbn [app zip_find]; [ destruct (zip_find file b); reflexivity | ]. rewrite IH. destruct (zip_find file b); reflexivity.
Qed.
Lemma find_one file f bs : zip_find file [(f, bs)] = if eqb_list f file then Some bs else None.
Proof. reflexivity. Qed.
Lemma find_none file a : zip_find file a = None <-> ~ In file (map fst a).
Proof.
  induction a as [ | (f, bs) a IH ]; cbn [zip_find map fst In]; [ tauto | ]. destruct (zip_find file a) as [ x | ].
  - split; [ discriminate | ]. intros H. exfalso. apply H. right. destruct (in_dec (list_eq_dec N.eq_dec) file (map fst a)) as [ | Hn ]; [ auto | ]. apply IH in Hn. discriminate.
  - destruct (eqb_list f file) eqn:E.
    + apply eqb_list_eq in E. split; [ discriminate | intros H; elim H; auto ].
    + apply eqb_list_neq in E. split; [ | auto ]. intros _ [ | H ]; [ auto | ]. now apply IH.
Qed.
Lemma names_in file a : In file (zip_names a) <-> In file (map fst a).
Proof.
  induction a as [ | (f, bs) a IH ]; cbn [zip_names map fst In]; [ tauto | ]. destruct (existsb (eqb_list f) (zip_names a)) eqn:E; cbn [In]; [ | tauto ].
  apply existsb_exists in E as (x & Hx & Ex). apply eqb_list_eq in Ex. subst x. split; [ tauto | ]. intros [ <- | ]; tauto.
Qed.
Lemma names_nodup a : NoDup (zip_names a).
Proof.
  induction a as [ | (f, bs) a IH ]; cbn [zip_names]; [ constructor | ]. destruct (existsb (eqb_list f) (zip_names a)) eqn:E; [ auto | ]. constructor; [ | auto ].
  intros Hi. assert (existsb (eqb_list f) (zip_names a) = true); [ | congruence ]. apply existsb_exists. exists f. split; [ auto | apply eqb_list_refl ].
Qed.
Lemma filter_map_in {A B} (f : A -> option B) l y : In y (filter_map f l) <-> exists x, In x l /\ f x = Some y.
Proof.
  induction l as [ | x l IH ]; cbn [filter_map In]; [ split; [ intros [] | intros (x & [] & _) ] | ]. destruct (f x) as [ z | ] eqn:E; cbn [In]; rewrite IH; split.
  - intros [ -> | (x' & H1 & H2) ]; eauto.
  - intros (x' & [ -> | H ] & H2); [ left; congruence | eauto ].
  - intros (x' & H1 & H2). eauto.
  - intros (x' & [ -> | H ] & H2); [ congruence | eauto ].
Qed.
Lemma filter_map_nodup {A B} (f : A -> option B) l : (forall x y z, In x l -> In y l -> f x = Some z -> f y = Some z -> x = y) -> NoDup l -> NoDup (filter_map f l).
Proof.
  intros Hf H. induction H as [ | x l Hx Hl IH ]; cbn [filter_map]; [ constructor | ].
  assert (IH' : NoDup (filter_map f l)) by (apply IH; intros; eapply Hf; eauto; now right). destruct (f x) as [ z | ] eqn:E; [ | auto ].
  constructor; [ | auto ]. intros Hi. apply filter_map_in in Hi as (y & Hy & Ey). assert (x = y) by (eapply Hf; eauto; [ now left | now right ]). congruence.
Qed.
(** The names listed are those under which something can be found, as far as file names have no NUL. *)
Lemma array_names_in a name : Forall (fun e => ~ In 0 (fst e)) a -> In name (array_names a) <-> In (file_name_from_array_name name) (map fst a).
Proof.
  intros H0. unfold array_names. rewrite filter_map_in. split.
  - intros (f & Hf & Ef). apply names_in in Hf. apply name_exact in Ef as (rest & -> & Hn & Hr). apply in_map_iff in Hf as (e & Ee & He).
    assert (He0 : ~ In 0 (fst e)) by (eapply Forall_forall in H0; eauto). destruct Hr as [ -> | (r & ->) ].
    + rewrite app_nil_r in Ee. apply in_map_iff. exists e. auto.
    + elim He0. rewrite Ee, !in_app_iff. right. right. now left.
  - intros Hi. exists (file_name_from_array_name name). split; [ now apply names_in | ]. apply name_round_trip. apply in_map_iff in Hi as (e & Ee & He).
    eapply Forall_forall in H0; [ | exact He ]. intros Hn. apply H0. rewrite Ee. apply in_or_app. auto.
Qed.
Lemma array_names_nodup a : Forall (fun e => ~ In 0 (fst e)) a -> NoDup (array_names a).
Proof.
  intros H0. apply filter_map_nodup; [ | apply names_nodup ]. intros x y z Hx Hy Ex Ey.
  assert (H : forall f, In f (zip_names a) -> array_name_from_file_name f = Some z -> f = file_name_from_array_name z).
  { intros f Hf E. apply names_in, in_map_iff in Hf as (e & <- & He). eapply Forall_forall in H0; [ | exact He ].
    apply name_exact in E as (rest & E & _ & [ -> | (r & ->) ]); [ now rewrite app_nil_r in E | ]. exfalso. assert (Hc : In 0 (fst e)) by (rewrite E, !in_app_iff; right; right; now left). exact (H0 Hc). }
  rewrite (H x Hx Ex), (H y Hy Ey). reflexivity.
Qed.

(** * One entry *)
Lemma dropped_round_trip c c' t d o shape vs s s' : wf_dtype d -> Forall (has_type t) vs -> lenN vs < 2 ^ 64 ->
  Forall (fun n => n < 2 ^ 64) shape -> no_overflow shape -> lenN vs = count shape ->
  extend_and_drop c t d o shape vs s = (Ok tt, s') ->
  accepts (c_usize_max c') Reading t d -> sizes_fit (c_usize_max c') d -> strings_fit (c_usize_max c') d ->
  reads_as c' t (sk_data s') (sk_pos s) d o shape (map (read_back t d) vs).
Proof.
  intros Hwf Hvs Hn H64 Hno Hcnt H Ha Hz Hsf. unfold extend_and_drop, sbind, begin_nd in H.
  destruct (begin_ c t d o (NDimensional shape) false s) as ([ w | e | ], s1) eqn:Eb; try discriminate.
  destruct (extend c vs w s1) as ((r, w'), s2) eqn:Ee. destruct (drop_writer w' s2) as (rd, s3) eqn:Ed.
  assert (Er : r = Ok tt /\ s3 = s') by (destruct rd; [ | | discriminate H ]; apply pair_inj in H; tauto). clear H. destruct Er as (-> & ->).
  destruct (begin_fixed c t d o shape _ s w s1 Eb) as (Ht & Hw & hdr & Hs1).
  destruct (extend_fixed c t d o shape s 0 [] w s1 hdr vs w' s2 Hwf Hvs Hw ltac:(lia) Hs1 Ee) as (payload & He & (F1 & F2 & F3 & (props & pad & F4) & F5) & Hw').
  cbn [app] in F5. destruct F1 as (c1 & F1 & e & Fe).
  assert (Hs3 : s' = put s2 [] (sk_fuel s')).
  { unfold drop_writer, finish_ in Ed. rewrite Fe in Ed. destruct (negb _); cbn [sret] in Ed.
    - apply pair_inj in Ed as (_ & <-). rewrite put_nil. now destruct s2.
    - unfold sink_flush in Ed. destruct (sink_tick s2) as (r, s4) eqn:Et. pose proof (tick_ok _ _ _ Et) as (Hs4 & _). destruct r; apply pair_inj in Ed as (_ & <-); auto. }
  assert (Hs' : s' = put s (hdr ++ payload) (sk_fuel s')).
  { rewrite <- (app_nil_r (hdr ++ payload)). eapply put_trans; eauto. }
  eapply (file_reads_back c' (c_usize_max c) t d o shape vs (sk_pos s) (sk_data s) (hdr ++ payload) payload); auto.
  - apply writer_accepts. eauto.
  - rewrite Hs'. apply placed_put. destruct hdr; [ congruence | discriminate ].
  - apply opens_with; auto. intros c2 rest. rewrite <- app_assoc. apply (read_written_nd c2 d o shape hdr props pad Hwf Ht H64 F4).
Qed.
Lemma dropped_succeeds c t d o shape vs s : wf_dtype d -> strings_fit (c_usize_max c) d -> top_level d -> accepts (c_usize_max c) Writing t d -> Forall (has_type t) vs ->
  Forall (fun v => exists b, encode t d v = Some b) vs -> lenN vs < 2 ^ 64 ->
  Forall (fun n => n < 2 ^ 64) shape -> no_overflow shape -> lenN vs = count shape -> short_header d (NDimensional shape) -> sk_fuel s = None ->
  exists s', extend_and_drop c t d o shape vs s = (Ok tt, s') /\ sk_fuel s' = None.
Proof.
  intros Hwf Hsf Ht Ha Hv He Hn H64 Hno Hc Hs Hf. destruct (fixed_succeeds c t d o shape vs s Hwf Hsf Ht Ha Hv He Hn H64 Hno Hc Hs Hf) as (s' & H).
  destruct (write_file_ok c t d o (NDimensional shape) vs s s' Hwf Hv Hn (conj H64 Hno) H) as (_ & hdr & payload & _ & _ & _ & Hfu & _). specialize (Hfu Hf) as (_ & Hfu).
  exists s'. split; [ | auto ]. unfold write_file, extend_and_drop, begin_nd, sbind in *. destruct (begin_ c t d o (NDimensional shape) false s) as ([ w | e | ], s1) eqn:Eb; try discriminate.
  unfold push_all_and_finish in H. destruct (extend c vs w s1) as ((r, w'), s2) eqn:Ee.
  destruct r as [ [] | e | ]; [ | destruct (drop_writer w' s2) as ([ [] | | ], ?); discriminate | destruct (drop_writer w' s2) as ([ [] | | ], ?); discriminate ].
  destruct (begin_fixed c t d o shape _ s w s1 Eb) as (_ & Hw & hdr' & Hs1).
  destruct (extend_fixed c t d o shape s 0 [] w s1 hdr' vs w' s2 Hwf Hv Hw ltac:(lia) Hs1 Ee) as (payload' & _ & ((c1 & F1 & e & Fe) & _) & _).
  destruct (known_finish w' e s2 _ _ Fe H) as (K1 & K2 & K3).
  unfold finish, drop_writer, finish_ in *. rewrite Fe in *. destruct (negb _); [ discriminate | ]. unfold sink_flush in *.
  assert (Hf2 : sk_fuel s2 = None).
  { destruct (sk_fuel s2) as [ n | ] eqn:E2; [ | reflexivity ]. exfalso. unfold sink_tick in H. rewrite E2 in H. destruct (n =? 0); cbn [sk_fuel] in H.
    - rewrite E2 in H. destruct (n =? 0); discriminate.
    - destruct (n - 1 =? 0); apply pair_inj in H as (_ & <-); discriminate Hfu. }
  rewrite tick_none by auto. rewrite K2 by auto. reflexivity.
Qed.

(** * Saving *)
Lemma array_inv {A} name (k : sink -> res A * sink) z r z' : npz_array name k z = (r, z') ->
  (z' = z /\ exists e, r = Err e) \/
  exists s s', sk_data s = [] /\ sk_pos s = 0 /\ k s = (r, s') /\ z' = {| nz_entries := nz_entries z ++ [(file_name_from_array_name name, sk_data s')]; nz_fuel := sk_fuel s' |}.
Proof.
  unfold npz_array, sink_tick. cbn [sk_fuel]. destruct (nz_fuel z) as [ n | ].
  - destruct (n =? 0).
    + intros H. apply pair_inj in H as (<- & <-). left. eauto.
    + destruct (k _) as (r', s') eqn:E. intros H. apply pair_inj in H as (<- & <-). right. eexists _, s'. split; [ | split; [ | split; [ exact E | reflexivity ] ] ]; reflexivity.
  - destruct (k _) as (r', s') eqn:E. intros H. apply pair_inj in H as (<- & <-). right. eexists _, s'. split; [ | split; [ | split; [ exact E | reflexivity ] ] ]; reflexivity.
Qed.
Lemma array_none {A} name (k : sink -> res A * sink) z r s' : nz_fuel z = None -> k empty_sink = (r, s') ->
  npz_array name k z = (r, {| nz_entries := nz_entries z ++ [(file_name_from_array_name name, sk_data s')]; nz_fuel := sk_fuel s' |}).
Proof. intros Hf H. unfold npz_array, sink_tick. cbn [sk_fuel]. rewrite Hf. change {| sk_data := []; sk_pos := 0; sk_fuel := None |} with empty_sink. rewrite H. reflexivity. Qed.

Lemma by_name_found c a name bs t d o shape vs : zip_find (file_name_from_array_name name) a = Some bs -> reads_as c t bs 0 d o shape vs -> found c a name t d o shape vs.
Proof.
  intros Hz (f & src & Hn & Hd & Hs & Ho & Hv). exists f. unfold by_name. rewrite Hz, Hn. cbn [fst bind]. auto.
Qed.
Lemma array_len x : is_array x -> lenN (sv_vals x) < 2 ^ 64.
Proof.
  intros (_ & _ & _ & Hno & ->). specialize (Hno 0%nat). cbn [firstn skipn] in Hno. tauto.
Qed.
Lemma save_ok c x z z' : is_array x -> save c x z = (Ok tt, z') ->
  exists bs, nz_entries z' = nz_entries z ++ [(file_name_from_array_name (sv_name x), bs)]
  /\ forall c', can_read c' x -> reads_as c' (sv_type x) bs 0 (sv_dtype x) (sv_order x) (sv_shape x) (map (read_back (sv_type x) (sv_dtype x)) (sv_vals x)).
Proof.
  intros Hx H. pose proof (array_len x Hx) as Hl. destruct Hx as (Hwf & Hv & H64 & Hno & Hc). unfold save in H.
  apply array_inv in H as [ (_ & e & He) | (s & s' & Hd & Hp & Hk & ->) ]; [ discriminate | ]. exists (sk_data s'). split; [ reflexivity | ].
  intros c' (Ha & Hz & Hsf). rewrite <- Hp. destruct (sv_ending x).
  - destruct (fixed_round_trip c c' _ _ _ _ _ _ _ Hwf Hv Hl H64 Hno Hk Ha Hz Hsf) as (_ & HR & _). exact HR.
  - exact (dropped_round_trip c c' _ _ _ _ _ _ _ Hwf Hv Hl H64 Hno Hc Hk Ha Hz Hsf).
Qed.
Lemma save_succeeds c x z : is_array x -> can_write c x -> nz_fuel z = None -> exists z', save c x z = (Ok tt, z') /\ nz_fuel z' = None.
Proof.
  intros Hx (Ht & Hsf & Ha & He & Hs) Hf. pose proof (array_len x Hx) as Hl. destruct Hx as (Hwf & Hv & H64 & Hno & Hc). unfold save.
  assert (Hk : exists s', (match sv_ending x with
     | Finished => write_file c (sv_type x) (sv_dtype x) (sv_order x) (NDimensional (sv_shape x)) false (sv_vals x)
     | Dropped => extend_and_drop c (sv_type x) (sv_dtype x) (sv_order x) (sv_shape x) (sv_vals x)
     end) empty_sink = (Ok tt, s') /\ sk_fuel s' = None).
  { destruct (sv_ending x).
    - destruct (fixed_succeeds c (sv_type x) (sv_dtype x) (sv_order x) (sv_shape x) (sv_vals x) empty_sink Hwf Hsf Ht Ha Hv He Hl H64 Hno Hc Hs eq_refl) as (s' & H).
      exists s'. split; [ exact H | ].
      destruct (write_file_ok c (sv_type x) (sv_dtype x) (sv_order x) (NDimensional (sv_shape x)) (sv_vals x) empty_sink s' Hwf Hv Hl (conj H64 Hno) H) as (_ & hdr & payload & _ & _ & _ & Hfu & _). exact (proj2 (Hfu eq_refl)).
    - apply dropped_succeeds; auto. }
  destruct Hk as (s' & Hk & Hf'). rewrite (array_none _ _ _ _ _ Hf Hk). eexists. split; [ reflexivity | exact Hf' ].
Qed.

Definition entry_of (x : saved) (e : text * bytes) : Prop :=
  fst e = file_name_from_array_name (sv_name x)
  /\ forall c', can_read c' x -> reads_as c' (sv_type x) (snd e) 0 (sv_dtype x) (sv_order x) (sv_shape x) (map (read_back (sv_type x) (sv_dtype x)) (sv_vals x)).
Lemma save_all_ok c l : forall z z', Forall is_array l -> save_all c l z = (Ok tt, z') ->
  exists new, nz_entries z' = nz_entries z ++ new /\
  Forall2 entry_of l new.
Proof.
  induction l as [ | x l IH ]; intros z z' Hl H; cbn [save_all] in H.
  - apply pair_inj in H as (_ & <-). exists []. rewrite app_nil_r. auto.
  - apply Forall_cons_iff in Hl as (Hx & Hl). unfold zbind in H. destruct (save c x z) as ([ [] | | ], z1) eqn:E; try discriminate.
    apply save_ok in E as (bs & E & Hr); [ | auto ]. apply IH in H as (new & H & HF); [ | auto ]. exists ((file_name_from_array_name (sv_name x), bs) :: new).
    split; [ rewrite H, E, <- app_assoc; reflexivity | ]. constructor; [ | auto ]. split; auto.
Qed.
Lemma saved_names l new : Forall2 entry_of l new ->
  map fst new = map (fun x => file_name_from_array_name (sv_name x)) l.
Proof. induction 1 as [ | x e l new (H & _) _ IH ]; [ reflexivity | ]. cbn [map]. now rewrite H, IH. Qed.
Lemma not_saved name l : ~ In name (map sv_name l) <-> ~ In (file_name_from_array_name name) (map (fun x => file_name_from_array_name (sv_name x)) l).
Proof.
  rewrite <- map_map with (f := sv_name). split; intros H Hi; apply H.
  - apply in_map_iff in Hi as (n & En & Hn). apply file_name_inj in En. now subst.
  - now apply in_map.
Qed.

Lemma lookup_saved c c' before x after z z' : Forall is_array (before ++ x :: after) -> save_all c (before ++ x :: after) z = (Ok tt, z') ->
  ~ In (sv_name x) (map sv_name after) -> can_read c' x ->
  found c' (nz_entries z') (sv_name x) (sv_type x) (sv_dtype x) (sv_order x) (sv_shape x) (map (read_back (sv_type x) (sv_dtype x)) (sv_vals x))
  /\ (Forall (survives (sv_type x) (sv_dtype x)) (sv_vals x) -> found c' (nz_entries z') (sv_name x) (sv_type x) (sv_dtype x) (sv_order x) (sv_shape x) (sv_vals x)).
Proof.
  intros Hl H Hn Hc. apply save_all_ok in H as (new & He & HF); [ | auto ]. apply Forall2_app_inv_l in HF as (n1 & n2 & F1 & F2 & ->).
  inversion F2 as [ | x' e l' n3 (Ef & Hr) F3 E1 E2 ]; subst. 
  assert (Hz : zip_find (file_name_from_array_name (sv_name x)) (nz_entries z') = Some (snd e)).
  { rewrite He, app_assoc, find_app. change (e :: n3) with ([e] ++ n3). rewrite find_app. destruct e as (f, bs). cbn [fst snd] in *. rewrite find_one, <- Ef, eqb_list_refl.
    replace (zip_find f n3) with (@None bytes); [ reflexivity | ]. symmetry. apply find_none. rewrite Ef, (saved_names _ _ F3). now apply not_saved. }
  split; [ eapply by_name_found; eauto | ]. intros Hs. eapply by_name_found; [ exact Hz | ]. specialize (Hr c' Hc). 
  apply Forall_app in Hl as (_ & Hl). apply Forall_cons_iff in Hl as ((_ & Hv & _) & _).
  rewrite (read_back_all c') in Hr; auto. apply Hc.
Qed.
Lemma lookup_other c c' l z z' name : Forall is_array l -> save_all c l z = (Ok tt, z') -> ~ In name (map sv_name l) ->
  by_name c' (nz_entries z') name = by_name c' (nz_entries z) name.
Proof.
  intros Hl H Hn. apply save_all_ok in H as (new & He & HF); [ | auto ]. unfold by_name. rewrite He, find_app.
  replace (zip_find (file_name_from_array_name name) new) with (@None bytes); [ reflexivity | ]. symmetry. apply find_none. rewrite (saved_names _ _ HF). now apply not_saved.
Qed.
Lemma names_listed c l z' : Forall is_array l -> save_all c l npz_new = (Ok tt, z') -> Forall (fun x => ~ In 0 (sv_name x)) l -> NoDup (map sv_name l) ->
  Permutation (array_names (nz_entries z')) (map sv_name l).
Proof.
  intros Hl H H0 Hd. apply save_all_ok in H as (new & He & HF); [ | auto ]. cbn [nz_entries npz_new app] in He. rewrite He. pose proof (saved_names _ _ HF) as Hnm.
  assert (Hz : Forall (fun e : text * bytes => ~ In 0 (fst e)) new).
  { clear - HF H0. induction HF as [ | x e l new (E & _) _ IH ]; [ constructor | ]. apply Forall_cons_iff in H0 as (H0 & H1). constructor; [ | auto ].
    rewrite E. intros Hi. apply in_app_or in Hi as [ | Hi ]; [ auto | ]. vm_compute in Hi. intuition discriminate. }
  apply NoDup_Permutation; [ now apply array_names_nodup | auto | ]. intros name. pose proof (array_names_in new name Hz) as Hin. unfold archive, text, bytes in *. rewrite Hin, Hnm, <- map_map with (f := sv_name). split.
  - intros Hi. apply in_map_iff in Hi as (n & En & Hn). apply file_name_inj in En. now subst.
  - apply in_map.
Qed.
Lemma save_all_succeeds c l : forall z, Forall is_array l -> Forall (can_write c) l -> nz_fuel z = None -> exists z', save_all c l z = (Ok tt, z').
Proof.
  induction l as [ | x l IH ]; intros z Hl Hw Hf; cbn [save_all]; [ eauto | ]. apply Forall_cons_iff in Hl as (Hx & Hl). apply Forall_cons_iff in Hw as (Hwx & Hw).
  destruct (save_succeeds c x z Hx Hwx Hf) as (z1 & E & Hf1). unfold zbind. rewrite E. auto.
Qed.
Lemma index_names i : file_name_from_index i = file_name_from_array_name (lit "arr_" ++ dec_z i)
  /\ array_name_from_file_name (file_name_from_index i) = Some (lit "arr_" ++ dec_z i)
  /\ forall j, file_name_from_index i = file_name_from_index j -> i = j.
Proof.
  assert (E : forall i, file_name_from_index i = file_name_from_array_name (lit "arr_" ++ dec_z i)) by (intros; unfold file_name_from_index, file_name_from_array_name; now rewrite app_assoc).
  split; [ apply E | split ].
  - rewrite E. apply name_round_trip. intros Hi. apply in_app_or in Hi as [ Hi | Hi ]; [ vm_compute in Hi; intuition discriminate | ].
    assert (Hd : forall n, ~ In 0 (dec n)) by (intros n Hn; pose proof (dec_digits n) as Hd; eapply Forall_forall in Hd; [ | exact Hn ]; discriminate Hd).
    destruct i; cbn [dec_z] in Hi; try (now apply Hd in Hi). apply in_app_or in Hi as [ Hi | Hi ]; [ vm_compute in Hi; intuition discriminate | now apply Hd in Hi ].
  - intros j. rewrite !E. intros H. apply file_name_inj, app_inv_head, dec_z_inj in H. auto.
Qed.
Lemma lookup_missing c c' l z' name : Forall is_array l -> save_all c l npz_new = (Ok tt, z') -> ~ In name (map sv_name l) ->
  by_name c' (nz_entries z') name = Ok None.
Proof. intros Hl H Hn. rewrite (lookup_other c c' l npz_new z' name Hl H Hn). reflexivity. Qed.
