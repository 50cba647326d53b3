(** Proofs for C89. *)
From Verif Require Import M_Base M_Text M_TypeStr M_PyLit M_IO M_Header M_Read M_Write M_Stack.
From Verif Require Import S_TypeStr S_DType S_Shape S_Header S_Text S_Python S_Dict S_Open S_Stack
  P_Base P_Text P_IO P_Shape P_Header P_Grammar P_Interp P_Open P_WriteHeader P_Demand.
Require Import ZifyBool ZifyNat ZifyN.
Open Scope N_scope.

(** * Values are no larger than their texts *)
Fixpoint nodes (v : value) : N :=
  match v with
  | VTuple l | VList l | VSet l => 1 + fold_right (fun x n => nodes x + n) 0 l
  | VDict l => 1 + fold_right (fun p n => nodes (fst p) + nodes (snd p) + n) 0 l
  | _ => 1
  end.
Definition nodes_list (l : list value) : N := fold_right (fun x n => nodes x + n) 0 l.
Definition nodes_pairs (l : list (value * value)) : N := fold_right (fun p n => nodes (fst p) + nodes (snd p) + n) 0 l.
Lemma nodes_pos v : 1 <= nodes v.
Proof. destruct v; cbn [nodes]; lia. Qed.
Lemma string_literal_len src s : string_literal src s -> 1 <= lenN src.
Proof. intros (prefix & long & q & rest & -> & _ & _ & _). rewrite !lenN_app. destruct long; cbn [quotes]; rewrite !lenN_cons; lia. Qed.
Lemma natural_len src n : natural src n -> 1 <= lenN src.
Proof. intros [ ? ? ? | ? ? ? ? ? ]; rewrite lenN_cons; lia. Qed.
Lemma signed_len src z : signed_rest src z -> 1 <= lenN src.
Proof. induction 1; rewrite ?lenN_cons; try lia. eapply natural_len; eauto. Qed.
Lemma literal_len : (forall src v, literal src v -> nodes v <= lenN src)
  /\ (forall close src vs, sequence close src vs -> 1 + nodes_list vs <= lenN src)
  /\ (forall src l, entries src l -> 1 + nodes_pairs l <= lenN src).
Proof.
  apply literal_all; intros; cbn [nodes nodes_list nodes_pairs fold_right fst snd] in *; fold nodes_list nodes_pairs in *; rewrite ?lenN_app, ?lenN_cons, ?lenN_app in *.
  all: try (change (fold_right (fun x n => nodes x + n) 0 vs) with (nodes_list vs)).
  all: try (change (fold_right (fun p n => nodes (fst p) + nodes (snd p) + n) 0 vs) with (nodes_pairs vs)).
  all: try (change (fold_right (fun p n => nodes (fst p) + nodes (snd p) + n) 0 l) with (nodes_pairs l)).
  all: try (change (lenN (lit ",")) with 1). all: try (change (lenN (lit "(")) with 1). all: try (change (lenN (lit ")")) with 1).
  all: try (change (lenN (lit "[")) with 1). all: try (change (lenN (lit "{")) with 1). all: try (change (lenN (lit "}")) with 1). all: try (change (lenN (lit ":")) with 1).
  all: try (change (lenN (lit "True")) with 4). all: try (change (lenN (lit "False")) with 5). all: try (change (lenN (lit "None")) with 4).
  all: try lia.
  - eapply string_literal_len; eauto.
  - match goal with H : integer_literal _ _ |- _ => destruct H as (H & _); eapply signed_len; eauto end.
Qed.

(** * DTypes are no larger than the values that describe them *)
Lemma types_wrap shape d : types (fold_right DArray d shape) = lenN shape + types d.
Proof. induction shape as [ | n shape IH ]; [ reflexivity | ]. cbn [fold_right types]. rewrite IH, lenN_cons. lia. Qed.
Lemma nesting_wrap shape d : nesting (fold_right DArray d shape) = nesting d.
Proof. induction shape as [ | n shape IH ]; [ reflexivity | ]. cbn [fold_right nesting]. exact IH. Qed.
Lemma shape_nodes v shape : shape_value v shape -> 1 + lenN shape <= nodes v.
Proof.
  intros (l & Hv & H). assert (G : lenN shape <= nodes_list l).
  { clear Hv. induction H as [ | x n l shape (-> & _) H IH ]; [ reflexivity | ]. rewrite lenN_cons. change (nodes_list (VInteger (Z.of_N n) :: l)) with (1 + nodes_list l). lia. }
  unfold nodes_list in G. destruct Hv as [ -> | -> ]; cbn [nodes]; lia.
Qed.
Lemma describes_types : (forall v d, describes v d -> types d <= nodes v)
  /\ (forall l fs, describes_fields l fs -> fold_right (fun f n => types (snd f) + n) 0 fs <= nodes_list l)
  /\ (forall v name d, describes_field v name d -> types d <= nodes v).
Proof.
  apply describes_mut.
  - intros s t _. reflexivity.
  - intros l fs _ IH. cbn [types nodes]. unfold nodes_list in IH. lia.
  - reflexivity.
  - intros v l name d fs _ H1 _ H2. cbn [fold_right snd]. change (nodes_list (v :: l)) with (nodes v + nodes_list l). lia.
  - intros v name dv d [ -> | -> ] _ H; cbn [nodes fold_right]; lia.
  - intros v name dv sv d shape Hv _ H Hs. rewrite types_wrap. apply shape_nodes in Hs. destruct Hv as [ -> | -> ]; cbn [nodes fold_right]; lia.
Qed.
Lemma nodes_pair k v l : In (k, v) l -> nodes k + nodes v <= nodes_pairs l.
Proof.
  induction l as [ | (k', v') l IH ]; [ intros [] | ]. change (nodes_pairs ((k', v') :: l)) with (nodes k' + nodes v' + nodes_pairs l). intros [ [= -> ->] | H ]; [ lia | specialize (IH H); lia ].
Qed.
Lemma utf8_longer s : lenN s <= lenN (utf8_string s).
Proof.
  induction s as [ | c s IH ]; [ reflexivity | ]. change (utf8_string (c :: s)) with (utf8_octets c ++ utf8_string s). rewrite lenN_cons, lenN_app.
  assert (1 <= lenN (utf8_octets c)); [ | lia ]. unfold utf8_octets. repeat match goal with |- context [ if ?b then _ else _ ] => destruct b end; rewrite ?lenN_cons; lia.
Qed.
Lemma header_nodes txt v : Forall (fun b => b < 256) txt -> parse_header_text txt = Ok v -> nodes v <= lenN txt.
Proof.
  intros Hb H. apply (proj1 (P_Open.header_text_exact txt v Hb)) in H as (src & _ & Ht & (b1 & s & b2 & -> & _ & _ & Hl)). apply (proj1 literal_len) in Hl.
  pose proof (utf8_longer (b1 ++ s ++ b2)) as L. rewrite !lenN_app in L. destruct Ht as [ -> | -> ]; rewrite ?lenN_app; lia.
Qed.
Lemma file_types c bs h rest : Forall (fun b => b < 256) bs -> run (read_and_interpret c) bs = (Ok h, rest) -> types (h_dtype h) + lenN rest <= lenN bs.
Proof.
  intros Hb H. apply preamble_exact in H as (pre & txt & hv & d & shape & o & -> & (a & len & -> & _) & Ht & (pairs & dv & sv & fortran & -> & _ & (l1 & l2 & -> & _) & Hd & _) & Hp).
  apply from_parts_ok in Hp as (-> & _). apply (proj1 describes_types) in Hd.
  assert (Hb' : Forall (fun b => b < 256) txt).
  { rewrite Forall_forall in *. intros x Hx. apply Hb. rewrite in_app_iff. left. right. rewrite !in_app_iff. auto 6. }
  apply header_nodes in Ht; [ | exact Hb' ]. cbn [nodes] in Ht. change (1 + nodes_pairs (l1 ++ (VString (lit "descr"), dv) :: l2) <= lenN txt) in Ht.
  pose proof (nodes_pair (VString (lit "descr")) dv (l1 ++ (VString (lit "descr"), dv) :: l2)) as G. specialize (G ltac:(apply in_or_app; right; now left)).
  rewrite lenN_app, lenN_cons, !lenN_app. lia.
Qed.

(** * Stacks *)
Lemma sbind_none {A B} (m : stacked A) (k : A -> stacked B) : m <> None -> (forall a, m = Some (Ok a) -> k a <> None) -> sbind m k <> None.
Proof. intros H Hk. destruct m as [ [ a | e | ] | ]; cbn [sbind]; auto; discriminate. Qed.
Lemma sbind_some {A B} (m : stacked A) (k : A -> stacked B) m' (k' : A -> res B) r : (forall r, m = Some r -> r = m') -> (forall a r, k a = Some r -> r = k' a) -> sbind m k = Some r -> r = bind m' k'.
Proof.
  intros Hm Hk H. destruct m as [ r' | ]; [ | discriminate H ]. rewrite <- (Hm _ eq_refl). destruct r' as [ a | e | ]; cbn [sbind bind] in *; [ now apply Hk | now injection H as <- | now injection H as <- ].
Qed.
Lemma tuple_enough rec tup : Forall (fun d => rec d <> None) tup -> tuple_with rec tup <> None.
Proof.
  intros H. unfold tuple_with. destruct tup as [ | n [ | d [ | s [ | z l ] ] ] ]; try discriminate; inversion_clear H as [ | ? ? _ H' ]; inversion_clear H' as [ | ? ? Hd _ ]; destruct n; try discriminate.
  - apply sbind_none; [ exact Hd | discriminate ].
  - apply sbind_none; [ exact Hd | ]. intros ty _. apply sbind_none; discriminate.
Qed.
Lemma fields_enough rec l : Forall (fun e => forall tup, e = VList tup \/ e = VTuple tup -> Forall (fun d => rec d <> None) tup) l -> fields_with rec l <> None.
Proof.
  induction 1 as [ | e l He Hl IH ]; cbn [fields_with]; [ discriminate | ]. apply sbind_none.
  - destruct e; try discriminate; apply tuple_enough, He; auto.
  - intros f _. apply sbind_none; [ exact IH | discriminate ].
Qed.
Lemma nodes_in x l : In x l -> nodes x <= nodes_list l.
Proof. induction l as [ | y l IH ]; [ intros [] | ]. change (nodes_list (y :: l)) with (nodes y + nodes_list l). intros [ -> | H ]; [ lia | specialize (IH H); lia ]. Qed.
Lemma stack_enough n : forall v, nodes v <= N.of_nat n -> from_descr_within n v <> None.
Proof.
  induction n as [ | n IH ]; intros v H; [ pose proof (nodes_pos v); lia | ]. cbn [from_descr_within]. destruct v as [ s | z | l | l | l | l | b | ]; try discriminate.
  - apply sbind_none; discriminate.
  - apply sbind_none; [ | discriminate ]. apply fields_enough. rewrite Forall_forall. intros e He tup Ht. rewrite Forall_forall. intros d Hd. apply IH.
    apply nodes_in in He, Hd. cbn [nodes] in H. change (1 + nodes_list l <= N.of_nat (S n)) in H. assert (1 + nodes_list tup <= nodes e) by (destruct Ht as [ -> | -> ]; cbn [nodes]; unfold nodes_list; lia). lia.
Qed.
Lemma tuple_sound rec tup r e : e = VList tup \/ e = VTuple tup -> (forall v r, rec v = Some r -> r = from_descr v) -> tuple_with rec tup = Some r -> r = conv_field e.
Proof.
  intros He Hrec H. unfold tuple_with in H.
  destruct He as [ -> | -> ]; cbn [conv_field]; destruct tup as [ | n [ | d [ | s [ | z l ] ] ] ]; try (now injection H as <-); destruct n; try (now injection H as <-).
  all: eapply sbind_some; [ apply Hrec | | exact H ]; intros ty r' H'; try (now injection H' as <-).
  all: eapply sbind_some in H'; [ exact H' | intros r2 [= <-]; reflexivity | intros shape r2 [= <-]; reflexivity ].
Qed.
Lemma fields_sound rec l : (forall v r, rec v = Some r -> r = from_descr v) -> forall r, fields_with rec l = Some r -> r = mapM conv_field l.
Proof.
  intros Hrec. induction l as [ | e l IH ]; intros r H; cbn [fields_with mapM] in *; [ now injection H as <- | ].
  eapply sbind_some; [ | | exact H ].
  - intros r' H'. destruct e; try (injection H' as <-; reflexivity); eapply tuple_sound; eauto.
  - intros f r' H'. eapply sbind_some; [ exact IH | | exact H' ]. intros fs r2 [= <-]. reflexivity.
Qed.
Lemma stack_sound n : forall v r, from_descr_within n v = Some r -> r = from_descr v.
Proof.
  induction n as [ | n IH ]; intros v r H; [ discriminate H | ]. cbn [from_descr_within] in H. destruct v as [ s | z | l | l | l | l | b | ]; try (injection H as <-; reflexivity).
  - cbn [from_descr]. eapply sbind_some; [ | | exact H ]; [ intros r' [= <-]; reflexivity | intros t r' [= <-]; reflexivity ].
  - rewrite from_descr_list. eapply sbind_some; [ | | exact H ]; [ now apply fields_sound | intros fs r' [= <-]; reflexivity ].
Qed.
Lemma sbind_ok {A B} (m : stacked A) (k : A -> stacked B) b : sbind m k = Some (Ok b) -> exists a, m = Some (Ok a) /\ k a = Some (Ok b).
Proof. destruct m as [ [ a | e | ] | ]; cbn [sbind]; try discriminate. eauto. Qed.
Lemma tuple_nesting rec tup name d m : (forall v d, rec v = Some (Ok d) -> nesting d <= m) -> tuple_with rec tup = Some (Ok (name, d)) -> nesting d <= m.
Proof.
  intros Hrec H. unfold tuple_with in H. destruct tup as [ | n [ | dv [ | s [ | z l ] ] ] ]; try discriminate H; destruct n; try discriminate H.
  - apply sbind_ok in H as (ty & Hty & [= <- <-]). eauto.
  - apply sbind_ok in H as (ty & Hty & H). apply sbind_ok in H as (shape & _ & [= <- <-]). unfold wrap_arrays. rewrite nesting_wrap. eauto.
Qed.
Lemma fields_nesting rec l m : (forall v d, rec v = Some (Ok d) -> nesting d <= m) -> forall fs, fields_with rec l = Some (Ok fs) -> fold_right (fun f n => N.max (nesting (snd f)) n) 0 fs <= m.
Proof.
  intros Hrec. induction l as [ | e l IH ]; intros fs H; cbn [fields_with] in H; [ injection H as <-; cbn; lia | ].
  apply sbind_ok in H as ((name, d) & Hf & H). apply sbind_ok in H as (fs' & Hfs & [= <-]). cbn [fold_right snd]. apply IH in Hfs.
  assert (nesting d <= m); [ | lia ]. destruct e; try discriminate Hf; eapply tuple_nesting; eauto.
Qed.
Lemma stack_nesting n : forall v d, from_descr_within n v = Some (Ok d) -> nesting d <= N.of_nat n.
Proof.
  induction n as [ | n IH ]; intros v d H; [ discriminate H | ]. cbn [from_descr_within] in H. destruct v as [ s | z | l | l | l | l | b | ]; try discriminate H.
  - apply sbind_ok in H as (t & _ & [= <-]). cbn [nesting]. lia.
  - apply sbind_ok in H as (fs & Hfs & [= <-]). cbn [nesting]. apply (fields_nesting _ _ (N.of_nat n)) in Hfs; [ lia | exact IH ].
Qed.
(** Exactly which stacks are large enough for a description that is in order. *)
Lemma stack_exact n v d : describes v d -> nesting d <= N.of_nat n -> from_descr_within n v = Some (Ok d).
Proof.
  intros H. revert n. revert v d H.
  apply (describes_ind' (fun v d _ => forall n, nesting d <= N.of_nat n -> from_descr_within n v = Some (Ok d))
    (fun l fs _ => forall n, fold_right (fun f n => N.max (nesting (snd f)) n) 0 fs <= N.of_nat n -> fields_with (from_descr_within n) l = Some (Ok fs))
    (fun v name d _ => forall n, nesting d <= N.of_nat n -> exists tup, (v = VList tup \/ v = VTuple tup) /\ tuple_with (from_descr_within n) tup = Some (Ok (name, d)))).
  - intros s t H n L. cbn [nesting] in L. destruct n as [ | n ]; [ lia | ]. cbn [from_descr_within]. apply type_str_ok in H. now rewrite H.
  - intros l fs _ IH n L. cbn [nesting] in L. destruct n as [ | n ]; [ lia | ]. cbn [from_descr_within]. rewrite IH by lia. reflexivity.
  - reflexivity.
  - intros v l name d fs _ H1 _ H2 n L. cbn [fold_right snd] in L. cbn [fields_with]. destruct (H1 n ltac:(lia)) as (tup & Hv & E). rewrite H2 by lia. destruct Hv as [ -> | -> ]; rewrite E; reflexivity.
  - intros v name dv d Hv _ H n L. exists [VString name; dv]. split; [ tauto | ]. cbn [tuple_with]. now rewrite H.
  - intros v name dv sv d shape Hv _ H Hs n L. rewrite nesting_wrap in L. exists [VString name; dv; sv]. split; [ tauto | ]. cbn [tuple_with]. rewrite H by exact L. cbn [sbind].
    apply shape_ok in Hs. now rewrite Hs.
Qed.
Lemma stack_iff n v d : describes v d -> (from_descr_within n v = Some (Ok d) <-> nesting d <= N.of_nat n) /\ (from_descr_within n v = None <-> N.of_nat n < nesting d).
Proof.
  intros H. assert (E : from_descr_within n v = Some (Ok d) <-> nesting d <= N.of_nat n) by (split; [ apply stack_nesting | now apply stack_exact ]).
  split; [ exact E | ]. split.
  - intros E'. destruct (N.lt_ge_cases (N.of_nat n) (nesting d)) as [ | L ]; auto. apply E in L. rewrite L in E'. discriminate E'.
  - intros L. destruct (from_descr_within n v) as [ r | ] eqn:E'; auto. pose proof (stack_sound n v r E') as ->. rewrite (proj2 (descr_exact v d) H) in E'. apply stack_nesting in E'. lia.
Qed.

(** * Small files nested deeply *)
Fixpoint nest (k : nat) : dtype := match k with O => strings 0 | S k' => DRecord [([233], nest k')] end.
Lemma nest_top k : top_level (nest k).
Proof. destruct k; exact I. Qed.
Lemma nest_parts k : descr (nest k) = snd (descr_parts (nest k)).
Proof. destruct k; reflexivity. Qed.
Lemma nest_descr k : descr (nest (S k)) = lit "[('" ++ [233] ++ lit "', " ++ descr (nest k) ++ lit "), ]".
Proof.
  rewrite !nest_parts. destruct k as [ | k ]; [ reflexivity | ]. remember (nest (S k)) as d eqn:E. change (nest (S (S k))) with (DRecord [([233], nest (S k))]). rewrite <- E.
  assert (Hd : exists fs, d = DRecord fs) by (rewrite E; cbn [nest]; eauto). clear E. destruct Hd as (fs & ->).
  transitivity (lit "[" ++ ((lit "(" ++ py_str_lit [233] ++ lit ", " ++ snd (descr_parts (DRecord fs)) ++ lit "), ") ++ []) ++ lit "]"); [ reflexivity | ].
  rewrite app_nil_r, <- !app_assoc. change (py_str_lit [233]) with ([39; 233; 39]). reflexivity.
Qed.
Lemma nest_nesting k : nesting (nest k) = N.of_nat k + 1.
Proof. induction k as [ | k IH ]; [ reflexivity | ]. cbn [nest nesting fold_right snd]. rewrite IH. lia. Qed.
Lemma nest_wf k : wf_dtype (nest k).
Proof.
  induction k as [ | k IH ]; [ split; reflexivity | ]. cbn [nest wf_dtype]. repeat apply conj; [ | exact IH | exact I ]. intros ch [ <- | [] ]. reflexivity.
Qed.
Lemma nest_bytes c k : num_bytes c (nest k) = Some 0.
Proof.
  assert (H0 : (0 <=? c_usize_max c) = true) by (apply N.leb_le; lia). induction k as [ | k IH ].
  - cbn [nest strings num_bytes]. unfold ts_num_bytes, usize_try_from. cbn [ts_size ts_char]. now rewrite H0.
  - cbn [nest num_bytes]. rewrite IH. unfold usize_checked_add. change (0 + 0) with 0. now rewrite H0.
Qed.
Lemma nest_pickled k : uses_pickled_array (nest k) = false.
Proof. induction k as [ | k IH ]; [ reflexivity | ]. cbn [nest uses_pickled_array]. now rewrite IH. Qed.
Lemma nest_text k : lenN (utf8 (descr (nest k))) = 12 * N.of_nat k + 5.
Proof.
  induction k as [ | k IH ]; [ reflexivity | ]. rewrite nest_descr, !utf8_app, !lenN_app, IH.
  change (lenN (utf8 (lit "[('"))) with 3. change (lenN (utf8 [233])) with 2. change (lenN (utf8 (lit "', "))) with 3. change (lenN (utf8 (lit "), ]"))) with 4. lia.
Qed.
Lemma deep_file n : N.of_nat n <= 10 ^ 8 -> exists file, lenN file <= 12 * N.of_nat n + 200
  /\ (forall c, exists h, run (read_and_interpret c) file = (Ok h, []) /\ nesting (h_dtype h) = N.of_nat n + 1)
  /\ exists txt pairs dv, preamble_of file txt /\ parse_header_text txt = Ok (VDict pairs) /\ last_value (lit "descr") pairs dv /\ from_descr_within n dv = None.
Proof.
  intros Hn. change (10 ^ 8) with 100000000 in Hn. set (c0 := {| c_big := false; c_usize_max := 2 ^ 64 - 1; c_ovf_panics := true |}).
  assert (Hno : no_overflow []) by (intros [ | k ]; cbn; split; reflexivity).
  set (T := utf8 (header_dict (nest n) OrderC [])).
  assert (LT : lenN T = 12 * N.of_nat n + 55).
  { unfold T, header_dict. cbn [flat_map]. rewrite !utf8_app, !lenN_app, nest_text. cbn [app].
    change (lenN (utf8 (lit "{'descr': "))) with 10. change (lenN (utf8 (lit ", 'fortran_order': "))) with 19. change (lenN (utf8 (lit "False"))) with 5.
    change (lenN (utf8 (lit ", 'shape': ("))) with 12. change (lenN (utf8 [])) with 0. change (lenN (utf8 (lit "), }"))) with 4. lia. }
  assert (ET : lenN T <= 65525 \/ (Exists (fun b => 128 <= b) T /\ lenN T <= 2 ^ 32 - 13)).
  { destruct n as [ | n ]; [ left; lia | right ]. split; [ | change (2 ^ 32 - 13) with 4294967283; lia ].
    unfold T, header_dict. rewrite nest_descr, !utf8_app. apply Exists_exists. exists 195. split; [ | lia ]. rewrite !in_app_iff. right. left. right. left. vm_compute. now left. }
  destruct (write_header_only c0 (nest n) OrderC [] empty_sink) as (res, s') eqn:E.
  assert (res = Ok tt) as ->.
  { change res with (fst (res, s')). rewrite <- E. apply header_written; [ apply nest_top | auto | reflexivity | exact ET ]. }
  destruct (header_text_exact c0 (nest n) OrderC [] empty_sink s' E eq_refl) as (hdr & major & pad & Hs & [ (len & Hh & Hl & _) _ Ha _ _ ] & Hp). fold T in Hh.
  destruct (header_round_trip c0 (nest n) OrderC [] empty_sink s' E eq_refl (nest_wf n)) as (hdr' & Hs' & _ & Hrun); [ constructor | exact Hno | ].
  rewrite Hs in Hs'. apply app_inv_head in Hs'. subst hdr'.
  assert (Hr : forall c, exists h, run (read_and_interpret c) hdr = (Ok h, []) /\ h_dtype h = nest n).
  { intros c. destruct (Hrun c []) as (h & Hr & Hd & _); [ right; exists 0; apply nest_bytes | ]. rewrite app_nil_r in Hr. eauto. }
  exists hdr. split; [ | split ].
  - rewrite Hh. rewrite lenN_cons, !lenN_app, lenN_repeatN, Hl. change (lenN (lit "NUMPY")) with 5. change (lenN [major; 0]) with 2. change (lenN [10]) with 1. destruct (major =? 1); lia.
  - intros c. destruct (Hr c) as (h & H & Hd). exists h. split; [ exact H | ]. rewrite Hd. apply nest_nesting.
  - destruct (Hr c0) as (h & H & Hd). apply preamble_exact in H as (pre & txt & hv & d & shape & o & Hpre & Hof & Ht & (pairs & dv & sv & fortran & -> & _ & Hlast & Hdesc & _) & Hparts).
    apply from_parts_ok in Hparts as (Hd' & _). rewrite Hd in Hd'. subst d. rewrite app_nil_r in Hpre. subst pre. exists txt, pairs, dv. repeat apply conj; auto.
    apply (stack_iff n dv (nest n) Hdesc). rewrite nest_nesting. lia.
Qed.
Lemma header_stack txt pairs k dv : Forall (fun b => b < 256) txt -> parse_header_text txt = Ok (VDict pairs) -> In (k, dv) pairs ->
  forall n, lenN txt <= N.of_nat n -> from_descr_within n dv = Some (from_descr dv).
Proof.
  intros Hb Ht Hi n Hn. apply header_nodes in Ht; [ | exact Hb ]. cbn [nodes] in Ht. change (1 + nodes_pairs pairs <= lenN txt) in Ht. apply nodes_pair in Hi. pose proof (nodes_pos k).
  destruct (from_descr_within n dv) as [ r | ] eqn:E; [ now rewrite (stack_sound n dv r E) | ]. exfalso. revert E. apply stack_enough. lia.
Qed.

(** * The size of an item *)
Lemma fields_size n c : (forall d, (height d <= N.of_nat n -> num_bytes_within n c d = Some (num_bytes c d)) /\ (N.of_nat n < height d -> num_bytes_within n c d = None)) ->
  forall fs, let step := fun acc f => match acc with
        | None => None
        | Some a => match num_bytes_within n c (snd f) with
          | None => None
          | Some b => Some (match a, b with Some x, Some y => usize_checked_add c x y | _, _ => None end)
          end
        end in
  let tallest := fold_right (fun f m => N.max (height (snd f)) m) 0 fs in
  forall a, (tallest <= N.of_nat n -> fold_left step fs (Some a) =
      Some ((fix go (fs : list (text * dtype)) (acc : option N) : option N :=
       match fs with
       | [] => acc
       | (_, ty) :: fs' => go fs' (match acc with None => None | Some a => match num_bytes c ty with None => None | Some b => usize_checked_add c a b end end)
       end) fs a))
    /\ (N.of_nat n < tallest -> fold_left step fs (Some a) = None).
Proof.
  intros IH fs step. assert (Hnone : forall fs, fold_left step fs None = None) by (intros l; induction l as [ | f l IHl ]; [ reflexivity | exact IHl ]).
  induction fs as [ | (name, d) fs IHfs ]; intros tallest a; subst tallest; cbn [fold_right snd fold_left].
  - split; [ reflexivity | intros H; lia ].
  - destruct (IH d) as (H1 & H2).
    assert (Hstep : step (Some a) (name, d) = match num_bytes_within n c d with None => None | Some b => Some (match a, b with Some x, Some y => usize_checked_add c x y | _, _ => None end) end) by reflexivity.
    rewrite Hstep. clear Hstep. destruct (N.le_gt_cases (height d) (N.of_nat n)) as [ L | L ].
    + rewrite (H1 L). destruct (IHfs (match a, num_bytes c d with Some x, Some y => usize_checked_add c x y | _, _ => None end)) as (G1 & G2). split; intros H.
      * rewrite G1 by lia. destruct a; reflexivity.
      * apply G2. lia.
    + split; intros H; [ lia | ]. rewrite (H2 L). apply Hnone.
Qed.
Lemma size_exact c n : forall d, (height d <= N.of_nat n -> num_bytes_within n c d = Some (num_bytes c d)) /\ (N.of_nat n < height d -> num_bytes_within n c d = None).
Proof.
  induction n as [ | n IH ]; intros d.
  - split; intros H; [ destruct d; cbn [height] in H; lia | reflexivity ].
  - destruct d as [ t | len inner | fields ].
    + cbn [height num_bytes_within num_bytes]. split; intros H; [ reflexivity | lia ].
    + cbn [height num_bytes_within num_bytes]. destruct (IH inner) as (H1 & H2). split; intros H; [ rewrite H1 by lia; destruct (num_bytes c inner); reflexivity | now rewrite H2 by lia ].
    + destruct (fields_size n c IH fields (Some 0)) as (H1 & H2). change (height (DRecord fields)) with (1 + fold_right (fun f m => N.max (height (snd f)) m) 0 fields).
      split; intros H; [ apply H1; lia | apply H2; lia ].
Qed.
Lemma size_iff c n d : (num_bytes_within n c d = Some (num_bytes c d) <-> height d <= N.of_nat n) /\ (num_bytes_within n c d = None <-> N.of_nat n < height d).
Proof.
  destruct (size_exact c n d) as (H1 & H2). destruct (N.le_gt_cases (height d) (N.of_nat n)) as [ L | L ].
  - rewrite (H1 L). split; split; intros H; auto; [ discriminate H | lia ].
  - rewrite (H2 L). split; split; intros H; auto; [ discriminate H | lia ].
Qed.
Lemma height_types d : height d <= types d.
Proof.
  induction d as [ t | n d IH | fs IH ] using dtype_rect'; cbn [height types]; [ lia | lia | ].
  assert (fold_right (fun f n => N.max (height (snd f)) n) 0 fs <= fold_right (fun f n => types (snd f) + n) 0 fs); [ | lia ]. induction IH as [ | f fs H _ IHfs ]; cbn [fold_right]; lia.
Qed.
(** A field with [n] axes of length 1. *)
Definition tower (n : nat) : dtype := fold_right DArray (strings 0) (repeat 1 n).
Definition tall (n : nat) : dtype := DRecord [([233], tower n)].
Lemma tower_height n : height (tower n) = N.of_nat n + 1.
Proof. unfold tower. induction n as [ | n IH ]; [ reflexivity | ]. cbn [repeat fold_right height]. rewrite IH. lia. Qed.
Lemma tower_wf n : wf_dtype (tower n).
Proof. unfold tower. induction n as [ | n IH ]; [ split; reflexivity | ]. cbn [repeat fold_right wf_dtype]. split; [ reflexivity | exact IH ]. Qed.
Lemma tower_bytes c n : 1 <= c_usize_max c -> num_bytes c (tower n) = Some 0.
Proof.
  intros H. assert (H0 : (0 <=? c_usize_max c) = true) by (apply N.leb_le; lia). assert (H1 : (1 <=? c_usize_max c) = true) by (apply N.leb_le; lia). unfold tower. induction n as [ | n IH ].
  - exact (nest_bytes c 0).
  - cbn [repeat fold_right num_bytes]. rewrite IH. unfold usize_try_from. rewrite H1. unfold usize_checked_mul. change (0 * 1) with 0. now rewrite H0.
Qed.
Lemma ones_text n : lenN (utf8 (shape_str (repeat 1 n))) = 2 * N.of_nat n.
Proof.
  induction n as [ | n IH ]; [ reflexivity | ]. change (repeat 1 (S n)) with (1 :: repeat 1 n). replace (shape_str (1 :: repeat 1 n)) with (lit "1," ++ shape_str (repeat 1 n)) by reflexivity.
  rewrite utf8_app, lenN_app, IH. change (lenN (utf8 (lit "1,"))) with 2. lia.
Qed.
Lemma tower_parts n : descr_parts (tower n) = (repeat 1 n, lit "'|S0'").
Proof. unfold tower. induction n as [ | n IH ]; [ reflexivity | ]. cbn [repeat fold_right descr_parts]. now rewrite IH. Qed.
Lemma tall_descr n : descr (tall (S n)) = lit "[('" ++ [233] ++ lit "', '|S0', (" ++ shape_str (repeat 1 (S n)) ++ lit ")), ]".
Proof.
  transitivity (lit "[" ++ ((lit "(" ++ py_str_lit [233] ++ lit ", " ++ snd (descr_parts (tower (S n))) ++ lit ", (" ++ shape_str (fst (descr_parts (tower (S n)))) ++ lit ")), ") ++ []) ++ lit "]"); [ reflexivity | ].
  rewrite tower_parts. cbn [fst snd].
  rewrite !app_nil_r, <- !app_assoc. change (py_str_lit [233]) with [39; 233; 39]. reflexivity.
Qed.
Lemma tall_file n : (0 < n)%nat -> N.of_nat n <= 10 ^ 9 -> exists file, lenN file <= 2 * N.of_nat n + 200
  /\ forall c, 1 <= c_usize_max c -> exists h, run (read_and_interpret c) file = (Ok h, []) /\ num_bytes_within n c (h_dtype h) = None.
Proof.
  intros Hpos Hn. change (10 ^ 9) with 1000000000 in Hn. destruct n as [ | n ]; [ lia | clear Hpos ]. set (c0 := {| c_big := false; c_usize_max := 2 ^ 64 - 1; c_ovf_panics := true |}).
  assert (Hno : no_overflow []) by (intros [ | k ]; cbn; split; reflexivity).
  set (T := utf8 (header_dict (tall (S n)) OrderC [])).
  assert (LT : lenN T = 2 * N.of_nat (S n) + 71).
  { unfold T, header_dict. rewrite tall_descr. cbn [flat_map]. rewrite !utf8_app, !lenN_app, ones_text.
    change (lenN (utf8 (lit "{'descr': "))) with 10. change (lenN (utf8 (lit ", 'fortran_order': "))) with 19. change (lenN (utf8 (lit "False"))) with 5.
    change (lenN (utf8 (lit ", 'shape': ("))) with 12. change (lenN (utf8 [])) with 0. change (lenN (utf8 (lit "), }"))) with 4.
    change (lenN (utf8 (lit "[('"))) with 3. change (lenN (utf8 [233])) with 2. change (lenN (utf8 (lit "', '|S0', ("))) with 11. change (lenN (utf8 (lit ")), ]"))) with 5. lia. }
  assert (ET : Exists (fun b => 128 <= b) T /\ lenN T <= 2 ^ 32 - 13).
  { split; [ | change (2 ^ 32 - 13) with 4294967283; lia ].
    unfold T, header_dict. rewrite tall_descr, !utf8_app. apply Exists_exists. exists 195. split; [ | lia ]. rewrite !in_app_iff. right. left. right. left. vm_compute. now left. }
  assert (Hw : wf_dtype (tall (S n))).
  { unfold tall. pose proof (tower_wf (S n)) as Hw. set (d := tower (S n)) in *. cbn [wf_dtype]. split; [ | split; [ exact Hw | exact I ] ]. intros ch [ <- | [] ]. reflexivity. }
  destruct (write_header_only c0 (tall (S n)) OrderC [] empty_sink) as (res, s') eqn:E.
  assert (res = Ok tt) as ->.
  { change res with (fst (res, s')). rewrite <- E. apply header_written; [ exact I | auto | reflexivity | right; exact ET ]. }
  destruct (header_text_exact c0 (tall (S n)) OrderC [] empty_sink s' E eq_refl) as (hdr & major & pad & Hs & [ (len & Hh & Hl & _) _ Ha _ _ ] & Hp). fold T in Hh.
  destruct (header_round_trip c0 (tall (S n)) OrderC [] empty_sink s' E eq_refl Hw) as (hdr' & Hs' & _ & Hrun); [ constructor | exact Hno | ].
  rewrite Hs in Hs'. apply app_inv_head in Hs'. subst hdr'. exists hdr. split.
  - rewrite Hh. rewrite lenN_cons, !lenN_app, lenN_repeatN, Hl. change (lenN (lit "NUMPY")) with 5. change (lenN [major; 0]) with 2. change (lenN [10]) with 1. destruct (major =? 1); lia.
  - intros c Hc. destruct (Hrun c []) as (h & Hr & Hd & _).
    { right. exists 0. unfold tall. cbn [num_bytes]. rewrite (tower_bytes c (S n) Hc). unfold usize_checked_add. change (0 + 0) with 0. replace (0 <=? c_usize_max c) with true; [ reflexivity | ]. symmetry. apply N.leb_le. lia. }
    rewrite app_nil_r in Hr. exists h. split; [ exact Hr | ]. rewrite Hd. apply (proj2 (size_iff c (S n) (tall (S n)))). unfold tall. cbn [height fold_right snd]. rewrite tower_height. lia.
Qed.
