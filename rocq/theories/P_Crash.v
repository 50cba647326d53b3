(** Interrupted growing files. *)
From Verif Require Import M_Base M_Text M_TypeStr M_PyLit M_IO M_Header M_Read M_Serialize M_NpyReader M_Write.
From Verif Require Import S_TypeStr S_DType S_Shape S_Header S_Elem S_Strings S_Reader S_Write
  P_Base P_Text P_TypeStr P_PyLit P_Header P_IO P_Sink P_Shape P_WriteHeader P_Number P_Elem P_ReadOne P_WriteOne P_Codec P_Sizes P_Strings P_Parse P_ElemT
  P_Writer P_WriteFile P_Session P_Weight.
Open Scope N_scope.

(** * Parsing a header up to its shape *)
Definition dict_start (d : dtype) (o : order) : text :=
  lit "{'descr': " ++ descr d ++ lit ", 'fortran_order': " ++ order_word o ++ lit ", 'shape': ".
Definition dict_values (d : dtype) (o : order) (s : value) (more : list (value * value)) : value :=
  VDict ((VString (lit "descr"), snd (value_parts d)) :: (VString (lit "fortran_order"), VBool (order_bool o)) :: (VString (lit "shape"), s) :: more).

Lemma p_dict_forward K k X f : starter K -> prints K k -> starter X -> (2 * List.length K + 1 <= f)%nat ->
  p_dict (S f) (K ++ 58 :: 32 :: X) = match p_value f X with
    | None => None
    | Some (v, r3) => match skip_ws r3 with
                      | [] => None
                      | c4 :: r4 => if c4 =? 125 then Some ([(k, v)], r4)
                                    else if c4 =? 44 then match p_dict f (skip_ws r4) with Some (kvs, r5) => Some ((k, v) :: kvs, r5) | None => None end
                                    else None
                      end
    end.
Proof.
  intros Hs Hp HX Hf. specialize (Hp (58 :: 32 :: X) f I Hf). pose proof (starter_not_closer 125 K (or_intror (or_intror eq_refl)) Hs) as Hn.
  pose proof (skip_ws_starter X [] HX) as Hx. rewrite app_nil_r in Hx.
  destruct K as [ | k0 K ]; [ destruct Hs | ]. cbn [app] in *. cbn [p_dict]. change (chr "}") with 125. rewrite Hn, Hp.
  rewrite (skip_ws_nonblank 58) by reflexivity. change (58 =? chr ":") with true. cbv iota. rewrite skip_ws_space, Hx. reflexivity.
Qed.
Lemma p_value_dict_forward K k X f : starter K -> prints K k -> starter X -> (2 * List.length K + 1 <= f)%nat ->
  p_value (S f) (123 :: K ++ 58 :: 32 :: X) = match p_value f X with
    | None => None
    | Some (v, r3) => match skip_ws r3 with
                      | [] => None
                      | c4 :: r4 => if c4 =? 125 then Some (VDict [(k, v)], r4)
                                    else if c4 =? 44 then match p_dict f (skip_ws r4) with Some (kvs, r5) => Some (VDict ((k, v) :: kvs), r5) | None => None end
                                    else None
                      end
    end.
Proof.
  intros Hs Hp HX Hf. specialize (Hp (58 :: 32 :: X) f I Hf). pose proof (starter_not_closer 125 K (or_intror (or_intror eq_refl)) Hs) as Hn.
  pose proof (skip_ws_starter X [] HX) as Hx. rewrite app_nil_r in Hx.
  pose proof (skip_ws_starter K (58 :: 32 :: X) Hs) as Hk.
  cbn [p_value]. change (123 =? 39) with false. change (123 =? 34) with false. change (123 =? chr "u") with false.
  change (123 =? chr "U") with false. change (is_digit 123) with false. change (123 =? chr "+") with false.
  change (123 =? chr "-") with false. change (123 =? chr "(") with false. change (123 =? chr "[") with false.
  change (123 =? chr "{") with true. cbn [orb]. rewrite Hk.
  destruct K as [ | k0 K ]; [ destruct Hs | ]. cbn [app] in *. change (chr "}") with 125. rewrite Hn, Hp.
  rewrite (skip_ws_nonblank 58) by reflexivity. change (58 =? chr ":") with true. cbv iota. rewrite skip_ws_space, Hx. reflexivity.
Qed.

(** What is parsed from the value of 'shape' on. *)
Definition parse_tail (d : dtype) (o : order) (f : nat) (Q : text) : option value :=
  match p_value f Q with
  | None => None
  | Some (s, r3) =>
    match skip_ws r3 with
    | [] => None
    | c4 :: r4 =>
      if c4 =? 125 then match skip_ws r4 with [] => Some (dict_values d o s []) | _ => None end
      else if c4 =? 44 then
        match p_dict f (skip_ws r4) with
        | Some (kvs, r5) => match skip_ws r5 with [] => Some (dict_values d o s kvs) | _ => None end
        | None => None
        end
      else None
    end
  end.

Lemma parse_start d o Q : top_level d -> starter Q -> exists f, (2 * List.length Q + 2 <= f)%nat /\ parse_literal (dict_start d o ++ Q) = parse_tail d o f Q.
Proof.
  intros Ht HQ. destruct (descr_prints d Ht) as (Hsd & Hpd).
  assert (Hkey : forall k, plain (lit k) -> starter (39 :: lit k ++ [39]) /\ prints (39 :: lit k ++ [39]) (VString (lit k))).
  { intros k Hk. split; [ cbn; repeat split; lia | now apply prints_plain ]. }
  assert (K1 := Hkey "descr"%string). assert (K2 := Hkey "fortran_order"%string). assert (K3 := Hkey "shape"%string). clear Hkey.
  destruct K1 as (K1s & K1); [ plain_lit | ]. destruct K2 as (K2s & K2); [ plain_lit | ]. destruct K3 as (K3s & K3); [ plain_lit | ].
  assert (Ho : starter (order_word o) /\ prints (order_word o) (VBool (order_bool o))).
  { destruct o; split; cbn; try (repeat split; lia); [ apply prints_false | apply prints_true ]. }
  destruct Ho as (Hos & Hop).
  set (kd := 39 :: lit "descr" ++ [39]) in *. set (kf := 39 :: lit "fortran_order" ++ [39]) in *. set (ks := 39 :: lit "shape" ++ [39]) in *.
  set (X3 := ks ++ 58 :: 32 :: Q). set (X2 := kf ++ 58 :: 32 :: order_word o ++ 44 :: 32 :: X3). set (X1 := descr d ++ 44 :: 32 :: X2).
  assert (E : dict_start d o ++ Q = 123 :: kd ++ 58 :: 32 :: X1).
  { unfold dict_start, X1, X2, X3, kd, kf, ks. app_norm. reflexivity. }
  assert (Lkd : List.length kd = 7%nat) by reflexivity. assert (Lkf : List.length kf = 15%nat) by reflexivity. assert (Lks : List.length ks = 7%nat) by reflexivity.
  set (F := (2 * List.length (dict_start d o ++ Q) + 100)%nat).
  assert (LF : (2 * List.length X1 + 100 <= F)%nat).
  { unfold F. rewrite E. cbn [List.length]. rewrite app_length. cbn [List.length]. lia. }
  assert (L1 : List.length X1 = (List.length (descr d) + 2 + (15 + 2 + (List.length (order_word o) + 2 + (7 + 2 + List.length Q))))%nat).
  { unfold X1, X2, X3. repeat (rewrite app_length; cbn [List.length]). lia. }
  exists F. split; [ lia | ].
  rewrite (parse_literal_fuel _ (S (S (S F)))) by (unfold F; lia). rewrite E.
  assert (S1 : starter X1) by (unfold X1; destruct (descr d); [ destruct Hsd | exact Hsd ]).
  assert (S2 : starter (order_word o ++ 44 :: 32 :: X3)) by (destruct o; exact Hos).
  rewrite (skip_ws_nonblank 123) by reflexivity.
  rewrite (p_value_dict_forward kd (VString (lit "descr")) X1 (S (S F)) K1s K1 S1) by lia.
  unfold X1 at 1. rewrite Hpd by first [ exact I | lia ]. rewrite (skip_ws_nonblank 44) by reflexivity. change (44 =? 125) with false. change (44 =? 44) with true. cbv iota.
  assert (Hx2 : skip_ws (32 :: X2) = X2) by (rewrite skip_ws_space; now apply skip_ws_nonblank). rewrite Hx2.
  unfold X2 at 1. rewrite (p_dict_forward kf (VString (lit "fortran_order")) _ (S F) K2s K2 S2) by lia.
  rewrite Hop by first [ exact I | lia ]. rewrite (skip_ws_nonblank 44) by reflexivity. change (44 =? 125) with false. change (44 =? 44) with true. cbv iota.
  assert (Hx3 : skip_ws (32 :: X3) = X3) by (rewrite skip_ws_space; now apply skip_ws_nonblank). rewrite Hx3.
  unfold X3 at 1. rewrite (p_dict_forward ks (VString (lit "shape")) Q F K3s K3 HQ) by lia.
  unfold parse_tail. destruct (p_value F Q) as [ (s, r3) | ]; [ | reflexivity ]. destruct (skip_ws r3) as [ | c4 r4 ]; [ reflexivity | ].
  destruct (c4 =? 125); [ reflexivity | ]. destruct (c4 =? 44); [ | reflexivity ]. destruct (p_dict F (skip_ws r4)) as [ (kvs, r5) | ]; reflexivity.
Qed.

(** Accepted headers are balanced: one closing brace more than opening ones. *)
Lemma parse_balanced w d o Q v : balanced w -> top_level d -> starter Q -> quiet Q -> parse_literal (dict_start d o ++ Q) = Some v -> weight w Q = w 125.
Proof.
  intros Hw Ht HQ Hq H. destruct (parse_start d o Q Ht HQ) as (f & _ & E). rewrite E in H. unfold parse_tail in H.
  destruct (p_value f Q) as [ (s, r3) | ] eqn:E1; [ | discriminate ]. pose proof (proj1 (weights w Hw f) _ _ _ Hq E1) as W1.
  pose proof (value_quiet _ _ _ _ E1 Hq) as Q1. destruct (skip_ws r3) as [ | c4 r4 ] eqn:E2; [ discriminate | ].
  pose proof (skip_ws_cons w Hw _ _ _ E2) as W2. pose proof (skip_quiet_cons _ _ _ E2 Q1) as Q2.
  assert (Hnil : forall r, skip_ws r = [] -> weight w r = 0%Z) by (intros r Hr; rewrite <- (skip_ws_weight w Hw), Hr; reflexivity).
  destruct (N.eqb_spec c4 125) as [ -> | ].
  - destruct (skip_ws r4) eqn:E3; [ | discriminate ]. apply Hnil in E3. lia.
  - destruct (N.eqb_spec c4 44) as [ -> | ]; [ | discriminate ]. destruct (p_dict f (skip_ws r4)) as [ (kvs, r5) | ] eqn:E3; [ | discriminate ].
    destruct (skip_ws r5) eqn:E4; [ | discriminate ]. apply Hnil in E4. apply (proj2 (proj2 (weights w Hw f))) in E3; [ | now apply skip_quiet ].
    rewrite (skip_ws_weight w Hw) in E3. rewrite (comma_zero w Hw) in W2. lia.
Qed.

Definition star_w (c : N) : Z := if c =? 42 then 1 else 0.
Definition paren_w (c : N) : Z := if c =? 40 then 1 else if c =? 41 then -1 else 0.
Definition brace_w (c : N) : Z := if c =? 123 then 1 else if c =? 125 then -1 else 0.
Lemma star_balanced : balanced star_w.
Proof. unfold balanced. repeat split; try reflexivity. intros c; intros. unfold star_w. replace (c =? 42) with false by lia. reflexivity. Qed.
Lemma paren_balanced : balanced paren_w.
Proof. unfold balanced. repeat split; try reflexivity. intros c; intros. unfold paren_w. replace (c =? 40) with false by lia. replace (c =? 41) with false by lia. reflexivity. Qed.
Lemma brace_balanced : balanced brace_w.
Proof. unfold balanced. repeat split; try reflexivity. intros c; intros. unfold brace_w. replace (c =? 123) with false by lia. replace (c =? 125) with false by lia. reflexivity. Qed.

(** * Texts of digits, commas and blanks *)
Definition dull (s : text) : Prop := Forall (fun c => is_digit c = true \/ c = 44 \/ c = 32) s.
Lemma dull_dec n : dull (dec n).
Proof. eapply Forall_impl; [ | apply dec_digits ]. cbn. auto. Qed.
Lemma dull_app a b : dull a -> dull b -> dull (a ++ b).
Proof. intros. apply Forall_app; auto. Qed.
Lemma dull_space n : dull (repeatN 32 n).
Proof. apply Forall_repeatN. auto. Qed.
Lemma dull_weight w s : balanced w -> dull s -> weight w s = 0%Z.
Proof.
  intros Hw. induction 1 as [ | c s Hc Hs IH ]; [ reflexivity | ]. cbn [weight]. rewrite IH.
  destruct Hw as (_ & _ & _ & Hz). rewrite Hz; [ reflexivity | .. ]; unfold is_digit in Hc; lia.
Qed.
Lemma dull_take w n s : balanced w -> dull s -> weight w (takeN n s) = 0%Z.
Proof. intros Hw H. apply dull_weight; auto. now apply Forall_takeN. Qed.
Lemma dull_drop w n s : balanced w -> dull s -> weight w (dropN n s) = 0%Z.
Proof. intros Hw H. apply dull_weight; auto. now apply Forall_dropN. Qed.

Lemma take_one w n a c b : balanced w -> dull a -> weight w (takeN n (a ++ c :: b)) = if lenN a <? n then (w c + weight w (takeN (n - lenN a - 1) b))%Z else 0%Z.
Proof.
  intros Hw Ha. rewrite takeN_app_gen, weight_app, dull_take by auto. destruct (N.ltb_spec (lenN a) n).
  - replace (takeN (n - lenN a) (c :: b)) with (c :: takeN (n - lenN a - 1) b); [ reflexivity | ].
    change (c :: b) with ([c] ++ b). rewrite takeN_app_gen. rewrite (takeN_all _ [c]) by (change (lenN [c]) with 1; lia). reflexivity.
  - replace (n - lenN a) with 0 by lia. rewrite takeN_0. reflexivity.
Qed.
Lemma drop_one w n a c b : balanced w -> dull a -> weight w (dropN n (a ++ c :: b)) = if n <=? lenN a then (w c + weight w b)%Z else weight w (dropN (n - lenN a - 1) b).
Proof.
  intros Hw Ha. rewrite dropN_app_gen, weight_app, dull_drop by auto. destruct (N.leb_spec n (lenN a)).
  - replace (n - lenN a) with 0 by lia. rewrite dropN_0. reflexivity.
  - replace (dropN (n - lenN a) (c :: b)) with (dropN (n - lenN a - 1) b); [ reflexivity | ].
    change (c :: b) with ([c] ++ b). rewrite dropN_app_gen. rewrite (dropN_all _ [c]) by (change (lenN [c]) with 1; lia). reflexivity.
Qed.

(** * The patched text *)
(** [P ++ m ++ X ++ "), }" ++ blanks] overwrites [P ++ stars ++ X ++ "), }"]; [k] characters are written. *)
Definition tail4 : text := lit "), }".
Definition mixed (P m X : text) (k : N) : text :=
  takeN k (P ++ m ++ X ++ tail4 ++ repeatN 32 (20 - lenN m)) ++ dropN k (P ++ filler ++ X ++ tail4).

Lemma dull_comma : dull [44; 32].
Proof. constructor; [ auto | constructor; [ auto | constructor ] ]. Qed.
Lemma take_weight w X g n : balanced w -> dull X ->
  weight w (takeN n (X ++ tail4 ++ repeatN 32 g)) = ((if (lenN X <? n)%N then w 41%N else 0) + (if (lenN X + 3 <? n)%N then w 125%N else 0))%Z.
Proof.
  intros Hw HX. change (tail4 ++ repeatN 32 g) with (41 :: [44; 32] ++ 125 :: repeatN 32 g). rewrite (take_one w n X 41) by auto.
  destruct (N.ltb_spec (lenN X) n).
  - rewrite (take_one w _ [44; 32] 125) by (auto using dull_comma). change (lenN [44; 32]) with 2.
    rewrite dull_take by (auto using dull_space). destruct (N.ltb_spec 2 (n - lenN X - 1)), (N.ltb_spec (lenN X + 3) n); lia.
  - replace (lenN X + 3 <? n) with false by lia. lia.
Qed.
Lemma drop_weight w X n : balanced w -> dull X ->
  weight w (dropN n (X ++ tail4)) = ((if (n <=? lenN X)%N then w 41%N else 0) + (if (n <=? lenN X + 3)%N then w 125%N else 0))%Z.
Proof.
  intros Hw HX. change tail4 with (41 :: [44; 32] ++ 125 :: []). rewrite (drop_one w n X 41) by auto.
  pose proof dull_comma as Hd.
  destruct (N.leb_spec n (lenN X)).
  - rewrite weight_app. rewrite (dull_weight w [44; 32]) by auto. replace (n <=? lenN X + 3) with true by lia. cbn [weight]. lia.
  - rewrite (drop_one w _ [44; 32] 125) by auto. change (lenN [44; 32]) with 2. cbn [weight].
    destruct (N.leb_spec (n - lenN X - 1) 2), (N.leb_spec n (lenN X + 3)); rewrite ?dropN_all by (change (lenN (@nil N)) with 0; lia); cbn [weight]; lia.
Qed.

Lemma star_nonneg s : (0 <= weight star_w s)%Z.
Proof. induction s as [ | c s IH ]; cbn [weight]; [ lia | ]. unfold star_w at 1. destruct (c =? 42); lia. Qed.
Lemma star_repeat n : weight star_w (repeatN 42 n) = Z.of_N n.
Proof.
  induction n using N.peano_ind; [ reflexivity | ]. replace (N.succ n) with (1 + n) by lia. rewrite repeatN_succ. cbn [weight]. rewrite IHn. unfold star_w. change (42 =? 42) with true. cbv iota. lia.
Qed.
Lemma star_filler j : j <= 20 -> weight star_w (dropN j filler) = Z.of_N (20 - j).
Proof.
  intros H. replace filler with (repeatN 42 (j + (20 - j))) by (replace (j + (20 - j)) with 20 by lia; reflexivity).
  rewrite repeatN_add, (dropN_app j) by apply lenN_repeatN. apply star_repeat.
Qed.

(** The cases that balance. *)
Lemma mixed_cases P m X k pad : dull P -> dull m -> dull X -> lenN m <= 20 -> k <= lenN P + 24 + lenN X ->
  (forall w, balanced w -> weight w (40 :: mixed P m X k ++ repeatN 32 pad) = w 125) ->
  let g := 20 - lenN m in
  mixed P m X k = P ++ m ++ X ++ tail4 ++ repeatN 32 g
  \/ (exists b, b + g <= lenN X /\ 0 < g /\ mixed P m X k = P ++ m ++ takeN (b + g) X ++ dropN b X ++ tail4)
  \/ mixed P m X k = P ++ m ++ X ++ lit "),, }" \/ mixed P m X k = P ++ m ++ X ++ lit "), , }" \/ mixed P m X k = P ++ m ++ X ++ lit "),  }".
Proof.
  intros HP Hm HX Lm Hk HW g.
  assert (HW' : forall w, balanced w -> (w 40%N + weight w (mixed P m X k))%Z = w 125).
  { intros w Hw. specialize (HW w Hw). cbn [weight] in HW. rewrite weight_app, (dull_weight w (repeatN 32 pad)) in HW by auto using dull_space. lia. }
  clear HW. assert (Hstar := HW' _ star_balanced). assert (Hpar := HW' _ paren_balanced). assert (Hbr := HW' _ brace_balanced). clear HW'.
  change (star_w 40) with 0%Z in Hstar. change (star_w 125) with 0%Z in Hstar.
  change (paren_w 40) with 1%Z in Hpar. change (paren_w 125) with 0%Z in Hpar. change (brace_w 40) with 0%Z in Hbr. change (brace_w 125) with (-1)%Z in Hbr.
  assert (Hf : lenN filler = 20) by reflexivity. assert (Ht4 : lenN tail4 = 4) by reflexivity.
  (* all stars are gone *)
  assert (Hk20 : lenN P + 20 <= k).
  { destruct (N.le_gt_cases (lenN P + 20) k); auto. exfalso. unfold mixed in Hstar. rewrite weight_app in Hstar.
    pose proof (star_nonneg (takeN k (P ++ m ++ X ++ tail4 ++ repeatN 32 (20 - lenN m)))).
    rewrite dropN_app_gen, weight_app in Hstar. pose proof (star_nonneg (dropN k P)).
    rewrite dropN_app_gen, weight_app in Hstar. pose proof (star_nonneg (dropN (k - lenN P - lenN filler) (X ++ tail4))).
    rewrite (star_filler (k - lenN P)) in Hstar by lia. lia. }
  set (b := k - lenN P - 20). assert (Hb : b <= lenN X + 4) by (unfold b; lia).
  assert (E : mixed P m X k = P ++ m ++ takeN (b + g) (X ++ tail4 ++ repeatN 32 g) ++ dropN b (X ++ tail4)).
  { unfold mixed. fold g. rewrite (takeN_app_gen k P), (takeN_all k P) by lia. rewrite (takeN_app_gen _ m), (takeN_all _ m) by lia.
    rewrite (dropN_app_gen k P), (dropN_all k P) by lia. rewrite (dropN_app_gen _ filler), (dropN_all _ filler) by lia. cbn [app].
    rewrite <- !app_assoc. replace (k - lenN P - lenN m) with (b + g) by (unfold b, g; lia). replace (k - lenN P - lenN filler) with b by (unfold b; lia). reflexivity. }
  rewrite E in Hpar, Hbr |- *. rewrite !weight_app, (dull_weight _ P), (dull_weight _ m), take_weight, drop_weight in Hpar by (auto using paren_balanced).
  rewrite !weight_app, (dull_weight _ P), (dull_weight _ m), take_weight, drop_weight in Hbr by (auto using brace_balanced).
  change (paren_w 41) with (-1)%Z in Hpar. change (paren_w 125) with 0%Z in Hpar. change (brace_w 41) with 0%Z in Hbr. change (brace_w 125) with (-1)%Z in Hbr.
  clear E Hstar.
  assert (Hc1 : ((if (lenN X <? b + g)%N then -1 else 0) + (if (b <=? lenN X)%N then -1 else 0) = -1)%Z).
  { revert Hpar. destruct (lenN X + 3 <? b + g), (b <=? lenN X + 3), (lenN X <? b + g), (b <=? lenN X); lia. }
  assert (Hc2 : ((if (lenN X + 3 <? b + g)%N then -1 else 0) + (if (b <=? lenN X + 3)%N then -1 else 0) = -1)%Z).
  { revert Hbr. destruct (lenN X + 3 <? b + g), (b <=? lenN X + 3), (lenN X <? b + g), (b <=? lenN X); lia. }
  clear Hpar Hbr.
  destruct (N.eq_dec g 0) as [ Hg | Hg ].
  { left. rewrite Hg, repeatN_0, N.add_0_r, app_nil_r. rewrite takeN_dropN. reflexivity. }
  destruct (N.eq_dec b (lenN X + 4)) as [ Eb | Hb' ].
  { left. rewrite takeN_all by (rewrite !lenN_app, lenN_repeatN, Ht4; lia). rewrite dropN_all by (rewrite lenN_app, Ht4; lia). now rewrite app_nil_r. }
  right.
  destruct (N.leb_spec b (lenN X)) as [ Hbx | Hbx ].
  { left. exists b. assert (Hbg : b + g <= lenN X) by (destruct (N.ltb_spec (lenN X) (b + g)); lia). split; [ exact Hbg | split; [ lia | ] ].
    rewrite (takeN_app_gen _ X). replace (b + g - lenN X) with 0 by lia. rewrite takeN_0, app_nil_r.
    rewrite (dropN_app_gen b X). replace (b - lenN X) with 0 by lia. now rewrite dropN_0. }
  right. assert (Hbg : b + g <= lenN X + 3).
  { destruct (N.ltb_spec (lenN X + 3) (b + g)), (N.leb_spec b (lenN X + 3)); lia. }
  clear Hc1 Hc2. rewrite (takeN_app_gen _ X), (takeN_all _ X) by lia. rewrite (dropN_app_gen b X), (dropN_all b X) by lia. cbn [app]. rewrite <- app_assoc.
  rewrite (takeN_app_gen _ tail4). replace (b + g - lenN X - lenN tail4) with 0 by (rewrite Ht4; lia). rewrite takeN_0, app_nil_r.
  assert (Hc : (b - lenN X = 1 /\ b + g - lenN X = 2) \/ (b - lenN X = 1 /\ b + g - lenN X = 3) \/ (b - lenN X = 2 /\ b + g - lenN X = 3)) by lia.
  destruct Hc as [ (-> & ->) | [ (-> & ->) | (-> & ->) ] ]; [ left | right; left | right; right ]; reflexivity.
Qed.

(** * Parsing the patched text *)
Definition before_axis (o : order) (h : shape_hint) : text :=
  match h, o with TwoDimensional r, OrderFortran => dec r ++ lit ", " | _, _ => [] end.
Definition after_axis (o : order) (h : shape_hint) : text :=
  match h, o with OneDimensional, _ => [44] | TwoDimensional r, OrderC => lit ", " ++ dec r | _, _ => [] end.
Lemma suffix_parts o h axis : growing h -> suffix o h axis = before_axis o h ++ axis ++ after_axis o h ++ tail4 ++ repeatN 32 (20 - lenN axis).
Proof. destruct h as [ sh | r | ]; [ destruct 1 | | ]; intros _; unfold suffix, before_axis, after_axis, tail4; destruct o; app_norm; reflexivity. Qed.
Lemma tuple_parts o h n : growing h -> tuple_text o h n = 40 :: before_axis o h ++ dec n ++ after_axis o h ++ [41].
Proof. destruct h as [ sh | r | ]; [ destruct 1 | | ]; intros _; unfold tuple_text, before_axis, after_axis; destruct o; app_norm; reflexivity. Qed.
Lemma before_dull o h : dull (before_axis o h).
Proof. unfold before_axis. destruct h; try constructor. destruct o; [ constructor | apply dull_app; [ apply dull_dec | apply dull_comma ] ]. Qed.
Lemma after_dull o h : dull (after_axis o h).
Proof.
  unfold after_axis. destruct h as [ sh | r | ]; [ destruct o; constructor | destruct o; [ | constructor ] | destruct o; constructor; auto; constructor ].
  apply dull_app; [ apply dull_comma | apply dull_dec ].
Qed.
Lemma mixed_eq o h n k : growing h ->
  takeN k (suffix o h (dec n)) ++ dropN k (suffix o h filler) = mixed (before_axis o h) (dec n) (after_axis o h) k.
Proof. intros Hg. unfold mixed. rewrite !suffix_parts by auto. change (20 - lenN filler) with 0. rewrite repeatN_0, !app_nil_r. reflexivity. Qed.

Lemma blank_repeat n : blanks (repeatN 32 n).
Proof. apply Forall_repeatN. reflexivity. Qed.
Lemma skip_blanks b : blanks b -> skip_ws b = [].
Proof. intros H. pose proof (skip_ws_blanks b [] H) as E. rewrite app_nil_r in E. exact E. Qed.

Lemma comma_no_value f R : p_value f (44 :: R) = None.
Proof. destruct f; reflexivity. Qed.

Lemma parse_tuple_end d o T V b b' : top_level d -> starter T -> prints T V -> blanks b -> blanks b' ->
  parse_literal (dict_start d o ++ T ++ 44 :: b ++ 125 :: b') = Some (dict_values d o V []).
Proof.
  intros Ht Hs Hp Hb Hb'. assert (HQ : starter (T ++ 44 :: b ++ 125 :: b')) by (destruct T; [ destruct Hs | exact Hs ]).
  destruct (parse_start d o _ Ht HQ) as (f & Hf & ->). unfold parse_tail. rewrite app_length in Hf. cbn [List.length] in Hf. rewrite Hp by first [ exact I | lia ].
  rewrite (skip_ws_nonblank 44) by reflexivity. change (44 =? 125) with false. change (44 =? 44) with true. cbv iota.
  rewrite skip_ws_blanks, (skip_ws_nonblank 125) by auto. destruct f as [ | f ]; [ lia | ]. cbn [p_dict]. change (125 =? chr "}") with true. cbv iota.
  now rewrite skip_blanks.
Qed.
Lemma parse_tuple_comma d o T V b R : top_level d -> starter T -> prints T V -> blanks b ->
  parse_literal (dict_start d o ++ T ++ 44 :: b ++ 44 :: R) = None.
Proof.
  intros Ht Hs Hp Hb. assert (HQ : starter (T ++ 44 :: b ++ 44 :: R)) by (destruct T; [ destruct Hs | exact Hs ]).
  destruct (parse_start d o _ Ht HQ) as (f & Hf & ->). unfold parse_tail. rewrite app_length in Hf. cbn [List.length] in Hf. rewrite Hp by first [ exact I | lia ].
  rewrite (skip_ws_nonblank 44) by reflexivity. change (44 =? 125) with false. change (44 =? 44) with true. cbv iota.
  rewrite skip_ws_blanks, (skip_ws_nonblank 44) by auto. destruct f as [ | f ]; [ lia | ]. cbn [p_dict]. change (44 =? chr "}") with false. cbv iota.
  now rewrite comma_no_value.
Qed.
Lemma parse_two_commas d o n R : top_level d -> parse_literal (dict_start d o ++ 40 :: dec n ++ 44 :: 44 :: R) = None.
Proof.
  intros Ht. assert (HQ : starter (40 :: dec n ++ 44 :: 44 :: R)) by (cbn; repeat split; lia).
  destruct (parse_start d o _ Ht HQ) as (f & Hf & ->). unfold parse_tail. cbn [List.length] in Hf. destruct f as [ | [ | f ] ]; try lia.
  rewrite tuple_forward by (cbn; split; [ reflexivity | lia ]). rewrite (skip_ws_nonblank 44) by reflexivity. change (44 =? 44) with true. cbv iota.
  rewrite (skip_ws_nonblank 44) by reflexivity. cbn [p_items]. change (44 =? 41) with false. cbv iota. now rewrite comma_no_value.
Qed.

Lemma parse_spaced_commas d o n R : top_level d -> parse_literal (dict_start d o ++ 40 :: dec n ++ 44 :: 32 :: 44 :: R) = None.
Proof.
  intros Ht. assert (HQ : starter (40 :: dec n ++ 44 :: 32 :: 44 :: R)) by (cbn; repeat split; lia).
  destruct (parse_start d o _ Ht HQ) as (f & Hf & ->). unfold parse_tail. cbn [List.length] in Hf. destruct f as [ | [ | f ] ]; try lia.
  rewrite tuple_forward by (cbn; split; [ reflexivity | lia ]). rewrite (skip_ws_nonblank 44) by reflexivity. change (44 =? 44) with true. cbv iota.
  rewrite skip_ws_space, (skip_ws_nonblank 44) by reflexivity. cbn [p_items]. change (44 =? 41) with false. cbv iota. now rewrite comma_no_value.
Qed.
Lemma parse_two_numbers d o n r c R : top_level d -> is_digit c = true -> parse_literal (dict_start d o ++ 40 :: dec n ++ 44 :: 32 :: dec r ++ 32 :: c :: R) = None.
Proof.
  intros Ht Hc. assert (HQ : starter (40 :: dec n ++ 44 :: 32 :: dec r ++ 32 :: c :: R)) by (cbn; repeat split; lia).
  destruct (parse_start d o _ Ht HQ) as (f & Hf & ->). unfold parse_tail. cbn [List.length] in Hf. rewrite app_length in Hf. cbn [List.length] in Hf. destruct f as [ | [ | [ | f ] ] ]; try lia.
  rewrite tuple_forward by (cbn; split; [ reflexivity | lia ]). rewrite (skip_ws_nonblank 44) by reflexivity. change (44 =? 44) with true. cbv iota.
  rewrite skip_ws_space, skip_ws_starter by apply dec_starter.
  pose proof (p_value_dec r (32 :: c :: R) f ltac:(cbn; split; [ reflexivity | lia ])) as P. destruct (dec_head_digit r) as (x & y & E & Hx). rewrite E in *. cbn [app] in *.
  remember (S f) as F. cbn [p_items]. replace (x =? 41) with false by (unfold is_digit in Hx; lia). rewrite P.
  rewrite skip_ws_space, (skip_ws_nonblank c) by (unfold is_digit in Hc; unfold is_blank; lia).
  replace (c =? 41) with false by (unfold is_digit in Hc; lia). change (chr ",") with 44. replace (c =? 44) with false by (unfold is_digit in Hc; lia). reflexivity.
Qed.

(** The known part and the variable part of a two-dimensional shape in C order cannot be mixed up. *)
Definition roomy (o : order) (h : shape_hint) (n : N) : Prop :=
  match h, o with
  | TwoDimensional r, OrderC => lenN (dec n) + lenN (dec r) <= 17 \/ lenN (dec n) = 20 \/ (lenN (dec n) = 18 /\ lenN (dec r) = 1)
  | _, _ => True
  end.

Lemma dull_quiet s : dull s -> quiet s.
Proof. intros H. eapply Forall_impl; [ | exact H ]. cbn. unfold is_digit. intros a Ha. lia. Qed.
Lemma mixed_quiet o h n k : growing h -> quiet (mixed (before_axis o h) (dec n) (after_axis o h) k).
Proof.
  intros Hg. pose proof (dull_quiet _ (before_dull o h)). pose proof (dull_quiet _ (after_dull o h)). pose proof (dull_quiet _ (dull_dec n)).
  assert (quiet tail4) by (unfold quiet, tail4; cbn; repeat constructor; lia). assert (quiet filler) by (apply (Forall_repeatN _ 42 20); lia).
  pose proof (dull_quiet _ (dull_space (20 - lenN (dec n)))).
  apply Forall_app; split; [ apply Forall_takeN | apply Forall_dropN ]; repeat (apply Forall_app; split; auto).
Qed.

Lemma crash_parse d o h n k pad v : growing h -> top_level d -> lenN (dec n) <= 20 -> roomy o h n -> k <= lenN (suffix o h (dec n)) ->
  parse_literal (dict_start d o ++ 40 :: (takeN k (suffix o h (dec n)) ++ dropN k (suffix o h filler)) ++ repeatN 32 pad) = Some v ->
  v = dict_value d o (shape_with o h n).
Proof.
  intros Hg Ht Hn Hr Hk H. rewrite mixed_eq in H by auto.
  assert (HQ : forall s, starter (40 :: s)) by (intros s; cbn; repeat split; lia).
  assert (Hq : quiet (40 :: mixed (before_axis o h) (dec n) (after_axis o h) k ++ repeatN 32 pad)).
  { constructor; [ lia | ]. apply Forall_app; split; [ now apply mixed_quiet | apply dull_quiet, dull_space ]. }
  assert (Hk' : k <= lenN (before_axis o h) + 24 + lenN (after_axis o h)).
  { rewrite suffix_parts, !lenN_app, lenN_repeatN in Hk by auto. change (lenN tail4) with 4 in Hk. lia. }
  pose proof (mixed_cases _ _ _ k pad (before_dull o h) (dull_dec n) (after_dull o h) Hn Hk'
    (fun w Hw => parse_balanced w d o _ v Hw Ht (HQ _) Hq H)) as Hcases. cbn zeta in Hcases.
  pose proof (tuple_text_prints o h n Hg) as Hp. rewrite tuple_parts in Hp by auto.
  set (V := VTuple _) in Hp. assert (HV : dict_values d o V [] = dict_value d o (shape_with o h n)) by reflexivity.
  destruct Hcases as [ E | [ (b & Hb & Hgp & E) | [ E | [ E | E ] ] ] ]; rewrite E in H; clear E.
  - pose proof (parse_tuple_end d o _ V [32] (repeatN 32 (20 - lenN (dec n)) ++ repeatN 32 pad) Ht (HQ _) Hp (blank_repeat 1)) as G.
    rewrite <- repeatN_add in G. specialize (G (blank_repeat _)). rewrite repeatN_add in G. rewrite <- HV. apply Some_inj. rewrite <- G, <- H. f_equal. f_equal. unfold tail4. app_norm. reflexivity.
  - exfalso. destruct h as [ sh | r | ]; [ destruct Hg | destruct o | ]; cbn [before_axis after_axis roomy] in *.
    + rewrite lenN_app in Hb. change (lenN (lit ", ")) with 2 in Hb. destruct Hr as [ Hr | [ Hr | (H18 & H1) ] ]; [ lia | lia | ].
      assert (Hx : exists x, dec r = [x] /\ is_digit x = true).
      { pose proof (dec_digits r) as Hd. destruct (dec r) as [ | x [ | ] ]; [ discriminate H1 | | rewrite !lenN_cons in H1; lia ]. exists x. split; [ auto | now inversion Hd ]. }
      destruct Hx as (x & Ex & Hx). rewrite H18 in H. change (20 - 18) with 2 in H. assert (b = 0 \/ b = 1) as [ -> | -> ] by lia.
      * change (takeN (0 + 2) (lit ", " ++ dec r)) with [44; 32] in H. rewrite dropN_0 in H. cbn [app lit] in H.
        rewrite <- !app_assoc in H. change (lit ", ") with [44; 32] in H. cbn [app] in H. rewrite parse_spaced_commas in H by auto. discriminate H.
      * pose proof (parse_two_numbers d OrderC n r x (tail4 ++ repeatN 32 pad) Ht Hx) as G. enough (Some v = None) by discriminate. rewrite <- H, <- G. f_equal. f_equal.
        rewrite Ex. change (takeN (1 + 2) (lit ", " ++ [x])) with [44; 32; x]. change (dropN 1 (lit ", " ++ [x])) with [32; x]. app_norm. reflexivity.
    + change (lenN (@nil N)) with 0 in Hb. lia.
    + change (lenN [44]) with 1 in Hb. assert (b = 0) as -> by lia. assert (20 - lenN (dec n) = 1) as E1 by lia.
      rewrite E1 in H. cbn [app] in H. rewrite <- app_assoc in H. change (takeN (0 + 1) [44] ++ dropN 0 [44] ++ tail4) with (44 :: 44 :: tail4) in H. cbn [app] in H.
      change ((44 :: 44 :: tail4) ++ repeatN 32 pad) with (44 :: 44 :: (tail4 ++ repeatN 32 pad)) in H.
      rewrite parse_two_commas in H by auto. discriminate.
  - exfalso. pose proof (parse_tuple_comma d o _ V [] (lit " }" ++ repeatN 32 pad) Ht (HQ _) Hp (Forall_nil _)) as G.
    enough (Some v = None) by discriminate. rewrite <- G, <- H. f_equal. f_equal. app_norm. reflexivity.
  - exfalso. pose proof (parse_tuple_comma d o _ V [32] (lit " }" ++ repeatN 32 pad) Ht (HQ _) Hp (blank_repeat 1)) as G.
    enough (Some v = None) by discriminate. rewrite <- G, <- H. f_equal. f_equal. app_norm. reflexivity.
  - pose proof (parse_tuple_end d o _ V [32; 32] (repeatN 32 pad) Ht (HQ _) Hp (blank_repeat 2) (blank_repeat _)) as G.
    rewrite <- HV. apply Some_inj. rewrite <- G, <- H. f_equal. f_equal. app_norm. reflexivity.
Qed.

(** * Reading the patched header *)
Lemma parse_patched d o mid pad : wf_dtype d -> top_level d -> ascii_text mid ->
  parse_header_text ((dict_prefix d o ++ mid) ++ repeatN 32 pad ++ [10])
  = match parse_literal (dict_start d o ++ 40 :: mid ++ repeatN 32 pad) with
    | None => Err (EData (lit "could not parse Python expression: "))
    | Some v => Ok v
    end.
Proof.
  intros Hw Ht Hm. unfold parse_header_text. rewrite app_assoc, strip_newline_nl.
  assert (E : (dict_prefix d o ++ mid) ++ repeatN 32 pad = utf8 (dict_start d o ++ 40 :: mid ++ repeatN 32 pad)).
  { unfold dict_start, dict_prefix. rewrite !utf8_app. rewrite !utf8_lit by plain_lit. rewrite (utf8_ascii (order_word o)) by (destruct o; plain_lit).
    rewrite (utf8_ascii (40 :: mid ++ _)); [ destruct o; cbn [order_word]; app_norm; reflexivity | ].
    constructor; [ lia | ]. apply ascii_app; [ auto | apply Forall_repeatN; lia ]. }
  rewrite E, from_utf8_utf8; [ reflexivity | ].
  unfold dict_start. repeat first [ apply ascii_scalars; plain_lit | now apply descr_scalars | apply ascii_scalars; destruct o; plain_lit | apply scalars_app ].
  apply ascii_scalars. constructor; [ lia | ]. apply ascii_app; [ auto | apply Forall_repeatN; lia ].
Qed.

Lemma mid_header d o h s0 n payload w s L pad props mid : growing h -> growing_state d o h s0 n payload w s L pad props ->
  lenN mid = lenN (suffix o h filler) -> ascii_text mid -> header_of (dict_prefix d o ++ mid) (L ++ mid ++ repeatN 32 pad ++ [10]) props pad.
Proof.
  intros Hg [ G1 G2 G3 G4 G5 G6 G7 G8 G9 ] Hl Ha. destruct filler_ok as (F1 & F2). pose proof (G7 filler F1 F2) as Hh.
  destruct (header_swap _ _ mid _ _ _ Hh Hl (suffix_ascii o h filler F2) Ha) as (L' & E & HL & Hh').
  replace L with L'; auto. symmetry. apply app_inj_lenN in E; [ tauto | lia ].
Qed.

Lemma filler_rejected c d o h hdr props pad : growing h -> wf_dtype d -> top_level d ->
  header_of (dict_prefix d o ++ suffix o h filler) hdr props pad ->
  forall rest, exists e r, run (read_and_interpret c) (hdr ++ rest) = (Err e, r).
Proof.
  intros Hg Hw Ht Hh rest. rewrite (read_header_of c _ _ _ _ Hh). rewrite parse_patched by (auto; apply suffix_ascii; apply filler_ok).
  destruct (parse_literal _) as [ v | ] eqn:E; [ exfalso | cbn [bind]; eauto ].
  apply (parse_balanced star_w d o) in E; auto using star_balanced; [ | cbn; repeat split; lia | ].
  - change (star_w 125) with 0%Z in E. cbn [weight] in E. change (star_w 40) with 0%Z in E. rewrite suffix_parts, !weight_app in E by auto.
    pose proof (star_nonneg (before_axis o h)). pose proof (star_nonneg (after_axis o h)). pose proof (star_nonneg tail4).
    pose proof (star_nonneg (repeatN 32 (20 - lenN filler))). pose proof (star_nonneg (repeatN 32 pad)).
    change (weight star_w filler) with 20%Z in E. lia.
  - rewrite <- (dropN_0 (suffix o h filler)). change (dropN 0 (suffix o h filler)) with ([] ++ dropN 0 (suffix o h filler)). rewrite <- (takeN_0 (suffix o h (dec 0))), mixed_eq by auto.
    constructor; [ lia | ]. apply Forall_app; split; [ now apply mixed_quiet | apply dull_quiet, dull_space ].
Qed.

Lemma patched_reads c d o h s0 n payload w s L pad props k : growing h -> wf_dtype d -> top_level d -> growing_state d o h s0 n payload w s L pad props ->
  let ax := variable_axis h n in
  lenN (dec ax) <= 20 -> roomy o h ax -> Forall (fun n => n < 2 ^ 64) (shape_with o h ax) -> k <= lenN (suffix o h (dec ax)) ->
  forall rest, (exists e r, run (read_and_interpret c) ((L ++ (takeN k (suffix o h (dec ax)) ++ dropN k (suffix o h filler)) ++ repeatN 32 pad ++ [10]) ++ rest) = (Err e, r))
  \/ run (read_and_interpret c) ((L ++ (takeN k (suffix o h (dec ax)) ++ dropN k (suffix o h filler)) ++ repeatN 32 pad ++ [10]) ++ rest) = (from_parts c d (shape_with o h ax) o, rest).
Proof.
  intros Hg Hw Ht Hs ax Hax Hr H64 Hk rest. set (mid := takeN k _ ++ dropN k _).
  assert (Hlen : lenN (suffix o h (dec ax)) = lenN (suffix o h filler)) by (rewrite !suffix_len; auto; apply filler_ok).
  assert (Hl : lenN mid = lenN (suffix o h filler)) by (unfold mid; rewrite lenN_app, lenN_takeN, lenN_dropN; lia).
  assert (Ha : ascii_text mid).
  { apply Forall_app; split; [ apply Forall_takeN | apply Forall_dropN ]; apply suffix_ascii; [ apply dec_ascii | apply filler_ok ]. }
  rewrite (read_header_of c _ _ _ _ (mid_header d o h s0 n payload w s L pad props mid Hg Hs Hl Ha)). rewrite parse_patched by auto.
  destruct (parse_literal _) as [ v | ] eqn:E; [ right | left; cbn [bind]; eauto ]. unfold mid in E. apply crash_parse in E; auto. subst v. cbn [bind].
  now rewrite interpret_dict.
Qed.

(** * Sessions *)
Lemma push_each_stuck c vs : forall w s rs w' s', sk_fuel s = Some 0 -> push_each c vs w s = (rs, w', s') -> sk_fuel s' = Some 0.
Proof.
  induction vs as [ | v vs IH ]; intros w s rs w' s' H H1; cbn [push_each] in H1.
  - apply pair_inj in H1 as (_ & <-). exact H.
  - destruct (push c v w s) as ((r, w1), s1) eqn:Ep. destruct (push_each c vs w1 s1) as ((rs1, w2), s2) eqn:Er. apply pair_inj in H1 as (_ & <-).
    refine (IH _ _ _ _ _ _ Er). unfold push in Ep. destruct (u64_add c (w_num_items w) 1); [ | now apply pair_inj in Ep as (_ & <-) | now apply pair_inj in Ep as (_ & <-) ].
    destruct (write_one c (w_writer w) v) as (bs, r1). unfold sbind in Ep. rewrite (sink_write_some s bs 0 H) in Ep.
    destruct (N.leb_spec (lenN bs) 0); unfold sret in Ep; apply pair_inj in Ep as (_ & <-); [ | reflexivity ]. unfold put. cbn [sk_fuel]. reflexivity.
Qed.
Lemma push_each_fuel c t d vs : wf_dtype d -> strings_fit (c_usize_max c) d -> Forall (has_type t) vs -> Forall (fun v => exists b, encode t d v = Some b) vs ->
  forall w s rs w' s', writer c t d = DOk (w_writer w) -> w_num_items w + lenN vs < 2 ^ 64 -> push_each c vs w s = (rs, w', s') ->
  sk_fuel s' = Some 0 \/ exists payload, encodings t d vs payload /\ s' = put s payload (sk_fuel s').
Proof.
  intros Hwf Hsf Hvs. induction Hvs as [ | v vs Hv Hvs IH ]; intros He w s rs w' s' Hw Hn H; cbn [push_each] in H.
  - apply pair_inj in H as (H & <-). right. exists []. split; [ apply encodings_nil | ]. rewrite put_nil. now destruct s.
  - apply Forall_cons_iff in He as ((b & Eb) & He). rewrite lenN_cons in Hn. destruct (push c v w s) as ((r, w1), s1) eqn:Ep.
    destruct (push_each c vs w1 s1) as ((rs1, w2), s2) eqn:Er. apply pair_inj in H as (H & <-). apply pair_inj in H as (_ & <-).
    rewrite push_eq in Ep by lia. pose proof Eb as Eb'. apply (write_exact c t d _ v b Hwf Hsf Hw Hv) in Eb'. rewrite Eb' in Ep. unfold sbind in Ep.
    assert (Hw1 : w1 = with_count w (w_num_items w + 1)) by (destruct (sink_write b s) as ([ [] | | ], sx); unfold sret in Ep; apply pair_inj in Ep as (Ep & _); now apply pair_inj in Ep as (_ & <-)).
    subst w1. specialize (IH He _ _ _ _ _ (Hw : writer c t d = DOk (w_writer (with_count w (w_num_items w + 1)))) ltac:(cbn [w_num_items with_count]; lia) Er).
    destruct IH as [ IH | (p & Hp & IH) ]; [ now left | ].
    destruct (sink_write b s) as ([ [] | e | ], sx) eqn:Es; unfold sret in Ep; apply pair_inj in Ep as (_ & <-).
    + right. exists (b ++ p). split; [ now apply encodings_cons | ]. apply sink_write_ok in Es. exact (put_trans _ _ _ _ _ Es IH).
    + left. assert (Hf0 : sk_fuel sx = Some 0).
      { destruct (sk_fuel s) as [ m | ] eqn:F; [ rewrite (sink_write_some s b m F) in Es | rewrite (sink_write_none s b F) in Es; discriminate ].
        destruct (lenN b <=? m); [ discriminate | ]. apply pair_inj in Es as (_ & <-). reflexivity. }
      exact (push_each_stuck c vs _ _ _ _ _ Hf0 Er).
    + exfalso. destruct (sk_fuel s) as [ m | ] eqn:F; [ rewrite (sink_write_some s b m F) in Es; destruct (lenN b <=? m); discriminate | rewrite (sink_write_none s b F) in Es; discriminate ].
Qed.

(** What the output holds after the header was attempted. *)
Lemma begin_output c t d o h s r s' : growing h -> at_end s -> begin_ c t d o h true s = (r, s') ->
  sk_data s' = sk_data s
  \/ (exists version k, sk_data s' = sk_data s ++ takeN k (magic ++ [fst version; snd version]))
  \/ exists hdr props pad k, top_level d /\ header_of (dict_prefix d o ++ suffix o h filler) hdr props pad /\ sk_data s' = sk_data s ++ takeN k hdr.
Proof.
  intros Hg He H. unfold begin_, sbind in H. unfold sink_tell, sbind in H. destruct (sink_tick s) as (r0, s0) eqn:E0.
  apply tick_ok in E0 as (Hs0 & Ht). assert (Hd0 : sk_data s0 = sk_data s) by (rewrite Hs0, put_nil; reflexivity).
  assert (He0 : at_end s0) by (rewrite Hs0; now apply at_end_put).
  destruct Ht as [ (-> & _) | (-> & _) ]; cbn [sret] in H; [ | apply pair_inj in H as (_ & <-); now left ]. unfold sret in H.
  destruct (write_header c d o h s0) as (r1, s1) eqn:E1.
  assert (Hs1 : s' = s1).
  { destruct r1 as [ ip | | ]; [ destruct (writer c t d) | | ]; apply pair_inj in H as (_ & <-); reflexivity. }
  subst s'. clear H.
  assert (Hw : forall bs q s2, sink_write bs s0 = (q, s2) -> exists k, sk_data s2 = sk_data s ++ takeN k bs).
  { intros bs q s2 Hw. destruct (sk_fuel s0) as [ n | ] eqn:F.
    - rewrite (sink_write_some s0 bs n F) in Hw. destruct (lenN bs <=? n); apply pair_inj in Hw as (_ & <-); rewrite put_end by auto; cbn [sk_data]; rewrite Hd0; [ | eauto ].
      exists (lenN bs). rewrite takeN_all by lia. reflexivity.
    - rewrite (sink_write_none s0 bs F) in Hw. apply pair_inj in Hw as (_ & <-). rewrite put_end by auto. cbn [sk_data]. rewrite Hd0. exists (lenN bs). rewrite takeN_all by lia. reflexivity. }
  assert (Htop : top_level d \/ s1 = s0).
  { destruct d; cbn [top_level]; auto. right. cbn [write_header] in E1. unfold sret in E1. now apply pair_inj in E1 as (_ & <-). }
  destruct Htop as [ Htop | -> ]; [ | now left ].
  destruct (write_header_full c d o h _ _ Htop (create_growing c d o h Hg)) as (pad & props & hdr & version & Hpad & Hp & Hho & Hok & Hno).
  set (dict := dict_prefix d o ++ suffix o h filler) in *.
  assert (Hf : header_fits dict \/ ~ header_fits dict) by (unfold header_fits; destruct (_ || _); lia).
  destruct Hf as [ Hf | Hf ].
  - rewrite (Hok Hf) in E1. unfold sbind in E1. destruct (sink_write hdr s0) as (q, s2) eqn:Ew. assert (s2 = s1) as ->.
    { destruct q; unfold sret in E1; now apply pair_inj in E1 as (_ & <-). }
    destruct (Hw _ _ _ Ew) as (k & Hk). right. right. exists hdr, props, pad, k. auto.
  - rewrite (Hno Hf) in E1. unfold sbind in E1. destruct (sink_write _ s0) as (q, s2) eqn:Ew. assert (s2 = s1) as ->.
    { destruct q; unfold sret in E1; now apply pair_inj in E1 as (_ & <-). }
    destruct (Hw _ _ _ Ew) as (k & Hk). right. left. exists version, k. auto.
Qed.

(** A prefix of a stream that is an error is an error. *)
Lemma prefix_error {A} (p : rprog A) pre suf : (exists e r, run p (pre ++ suf) = (Err e, r)) -> exists e r, run p pre = (Err e, r).
Proof.
  intros (e & r & H). pose proof (run_prefix p pre suf) as P. destruct (run p pre) as ([ a | e' | ], rest); [ congruence | eauto | congruence ].
Qed.
Lemma magic_error c version : exists suf e r, run (read_and_interpret c) ((magic ++ [fst version; snd version]) ++ suf) = (Err e, r).
Proof.
  destruct version as (a, b). cbn [fst snd]. exists [0; 0; 0; 0]. unfold read_and_interpret, read_header, read_pre_header. rewrite !run_bind.
  assert (E : run read_magic_and_version ((magic ++ [a; b]) ++ [0; 0; 0; 0]) = (Ok (a, b), [0; 0; 0; 0])) by reflexivity. rewrite E. cbn [then_].
  destruct (get_version_props (a, b)) as [ p | ]; [ | cbn; eauto ]. rewrite !run_bind. destruct (vp_u32 p); eexists _, _; reflexivity.
Qed.

Lemma cursor_run c D bs : npy_new c {| cur_data := D ++ bs; cur_pos := lenN D |} =
  match run (read_and_interpret c) bs with
  | (Ok h, rest) => let src := {| cur_data := D ++ bs; cur_pos := lenN D + (lenN bs - lenN rest) |} in (Ok {| nf_header := h; nf_src := src |}, src)
  | (Err e, rest) => (Err e, {| cur_data := D ++ bs; cur_pos := lenN D + (lenN bs - lenN rest) |})
  | (Panic, rest) => (Panic, {| cur_data := D ++ bs; cur_pos := lenN D + (lenN bs - lenN rest) |})
  end.
Proof.
  unfold npy_new, run_cursor, cur_rest. cbn [cur_data cur_pos]. rewrite (dropN_app (lenN D)) by auto. destruct (run (read_and_interpret c) bs) as ([ | | ], rest); reflexivity.
Qed.
Lemma error_fine c t d o h vs D bs : (exists e r, run (read_and_interpret c) bs = (Err e, r)) -> whole_or_error c t d o h vs (D ++ bs) (lenN D).
Proof. intros (e & r & E). unfold whole_or_error. rewrite cursor_run, E. exact I. Qed.

Lemma finish_stuck d o h w n s : growing h -> w_shape_info w = info_of d o h -> w_num_items w = n -> n < 2 ^ 64 -> w_seekable w = true ->
  (exists p, w_start_pos w = Some p) -> sk_fuel s = Some 0 -> sk_data (snd (finish_ w s)) = sk_data s /\ snd (finish w s) = s.
Proof.
  intros Hg Hi Hn Hb Hk (p & Hp) Hf. pose proof (finish_growing d o h w n Hg Hi Hn Hb) as H.
  assert (Hs : exists r, finish_ w s = (r, s)).
  { destruct (final_shape h o n).
    - destruct H as (H & _). rewrite H. unfold finishing, patch. rewrite Hp. unfold ms_tell. rewrite Hk. unfold sbind, sink_tell, sbind, sink_tick. rewrite Hf. cbn. eauto.
    - destruct H as (r & _ & H). rewrite H. eauto. }
  destruct Hs as (r & Hs). rewrite Hs. split; [ reflexivity | ]. unfold finish, drop_writer. rewrite !Hs. destruct r; cbn [snd]; rewrite ?Hs; reflexivity.
Qed.
Lemma drop_data w s : sk_data (snd (drop_writer w s)) = sk_data (snd (finish_ w s)).
Proof. unfold drop_writer. destruct (finish_ w s) as ([ | | ], s'); reflexivity. Qed.

Lemma interrupted c c' t d o h vs e D fuel r s' : growing h -> hint_ok h -> wf_dtype d -> strings_fit (c_usize_max c) d -> Forall (has_type t) vs ->
  Forall (fun v => exists b, encode t d v = Some b) vs -> lenN vs < 2 ^ 64 -> (final_shape h o (lenN vs) <> None -> roomy o h (variable_axis h (lenN vs))) ->
  (exists n, num_bytes c' d = Some n) ->
  session c t d o h true vs e {| sk_data := D; sk_pos := lenN D; sk_fuel := fuel |} = (r, s') ->
  whole_or_error c' t d o h vs (sk_data s') (lenN D).
Proof.
  intros Hg Hh Hwf Hsf Hvs He Hn Hr Hnb H. unfold session in H. set (s := {| sk_data := D; sk_pos := lenN D; sk_fuel := fuel |}) in *.
  assert (Hend : at_end s) by reflexivity. destruct (begin_ c t d o h true s) as (r1, s1) eqn:Eb.
  assert (Hfail : sk_data s' = sk_data s1 -> whole_or_error c' t d o h vs (sk_data s') (lenN D)).
  { intros ->. destruct (begin_output c t d o h s r1 s1 Hg Hend Eb) as [ E | [ (v & k & E) | (hdr & props & pad & k & Ht & Hh' & E) ] ]; rewrite E; change (sk_data s) with D.
    - rewrite <- (app_nil_r D) at 1. apply error_fine. destruct (magic_error c' (1, 0)) as (suf & Hs). exact (prefix_error _ [] _ Hs).
    - apply error_fine. destruct (magic_error c' v) as (suf & Hs). rewrite <- (takeN_dropN k (magic ++ _)) in Hs. rewrite <- app_assoc in Hs. exact (prefix_error _ _ _ Hs).
    - apply error_fine. pose proof (filler_rejected c' d o h hdr props pad Hg Hwf Ht Hh' []) as Hs. rewrite app_nil_r in Hs. rewrite <- (takeN_dropN k hdr) in Hs. exact (prefix_error _ _ _ Hs). }
  destruct r1 as [ w | err | ]; [ | apply Hfail; apply pair_inj in H as (_ & <-); reflexivity | apply Hfail; apply pair_inj in H as (_ & <-); reflexivity ].
  clear Hfail. destruct (begin_growing c t d o h s w s1 Hg Eb) as (Ht & Hw & L & pad & props & Hs1).
  destruct (push_each c vs w s1) as ((rs, w'), s2) eqn:Ep.
  destruct (push_each_growing c d o h s 0 [] w s1 L pad props vs rs w' s2 ltac:(lia) Hs1 Ep) as (more & Hs2). rewrite N.add_0_l in Hs2. cbn [app] in Hs2.
  pose proof (gs_count _ _ _ _ _ _ _ _ _ _ _ Hs1) as Hc0.
  assert (Hpl : sk_fuel s2 = Some 0 \/ encodings t d vs more).
  { destruct (push_each_fuel c t d vs Hwf Hsf Hvs He w s1 rs w' s2 Hw ltac:(lia) Ep) as [ F | (p & Hp & Hq) ]; [ now left | right ].
    replace more with p; auto. pose proof (gs_data _ _ _ _ _ _ _ _ _ _ _ Hs2) as D2. rewrite Hq in D2.
    pose proof (gs_data _ _ _ _ _ _ _ _ _ _ _ Hs1) as D1. pose proof (gs_pos _ _ _ _ _ _ _ _ _ _ _ Hs1) as P1.
    assert (E1 : at_end s1).
    { unfold at_end. rewrite P1, D1. change (sk_data s) with D. change (sk_pos s) with (lenN D). rewrite overwrite_end. symmetry. apply lenN_app. }
    rewrite put_end in D2 by exact E1. cbn [sk_data] in D2. rewrite D1 in D2. change (sk_data s) with D in D2. change (sk_pos s) with (lenN D) in D2. rewrite !overwrite_end in D2.
    rewrite <- !app_assoc in D2. repeat apply app_inv_head in D2. first [ exact D2 | symmetry; exact D2 ]. }
  (* the output after the end *)
  assert (Hd : exists rr ss, finish w' s2 = (rr, ss) /\ sk_data s' = sk_data ss).
  { destruct (finish w' s2) as (rr, ss) eqn:Ef. exists rr, ss. split; [ reflexivity | ]. destruct e; cbn [ended] in H.
    - rewrite Ef in H. apply pair_inj in H as (_ & <-). reflexivity.
    - destruct (drop_writer w' s2) as (q, s3) eqn:Edr. apply pair_inj in H as (_ & <-). pose proof (drop_data w' s2) as Hdd. rewrite Edr in Hdd. cbn [snd] in Hdd. rewrite Hdd.
      pose proof (finish_state d o h s _ more w' s2 L pad props Hg Hn Hs2) as HF. destruct (final_shape h o (lenN vs)).
      + destruct HF as (_ & _ & HF). destruct (HF _ _ Ef) as ((_ & HF') & _). exact HF'.
      + destruct HF as (q' & _ & HF1 & HF2 & _). rewrite HF1. rewrite HF2 in Ef. apply pair_inj in Ef as (_ & <-). reflexivity. }
  destruct Hd as (rr & ss & Ef & ->). clear H s' e.
  pose proof (gs_data _ _ _ _ _ _ _ _ _ _ _ Hs2) as D2. change (sk_data s) with D in D2. change (sk_pos s) with (lenN D) in D2. rewrite overwrite_end in D2.
  assert (Hfill : sk_data ss = sk_data s2 -> whole_or_error c' t d o h vs (sk_data ss) (lenN D)).
  { intros ->. rewrite D2. apply error_fine. destruct filler_ok as (F1 & F2).
    pose proof (filler_rejected c' d o h _ props pad Hg Hwf Ht (gs_headers _ _ _ _ _ _ _ _ _ _ _ Hs2 filler F1 F2) more) as Hs. rewrite <- !app_assoc in Hs. exact Hs. }
  assert (Hstuck : sk_fuel s2 = Some 0 -> whole_or_error c' t d o h vs (sk_data ss) (lenN D)).
  { intros F. apply Hfill. destruct (finish_stuck d o h w' (lenN vs) s2 Hg) as (_ & E); auto; try apply Hs2; [ eexists; apply Hs2 | ]. rewrite Ef in E. cbn [snd] in E. now subst. }
  destruct Hpl as [ F | Henc ]; [ now apply Hstuck | ].
  pose proof (finish_state d o h s _ more w' s2 L pad props Hg Hn Hs2) as HF. destruct (final_shape h o (lenN vs)) as [ shape | ] eqn:Es.
  2:{ destruct HF as (q & _ & _ & HF & _). rewrite HF in Ef. apply pair_inj in Ef as (_ & <-). now apply Hfill. }
  cbn zeta in HF. destruct HF as (Hsh & Hax & HF). destruct (HF _ _ Ef) as (_ & HF').
  destruct (shape_with_ok h o (lenN vs) shape Hg Hh Hn Es Hsh) as (Hs64 & Hno & Hcnt).
  assert (Hlax : lenN (dec (variable_axis h (lenN vs))) <= 20) by (apply dec_length_u64; lia).
  set (ax := variable_axis h (lenN vs)) in *. set (new := suffix o h (dec ax)) in *. set (old := suffix o h filler) in *.
  assert (Hlen : lenN new = lenN old) by (unfold new, old; rewrite !suffix_len; auto; apply filler_ok).
  assert (Hk : exists k, k <= lenN new /\ sk_data ss = D ++ (L ++ (takeN k new ++ dropN k old) ++ repeatN 32 pad ++ [10]) ++ more).
  { change (sk_data s) with D in HF'. change (sk_pos s) with (lenN D) in HF'. destruct HF' as [ (_ & Hd & _) | (_ & _ & _ & k & Hk & Hd) ]; rewrite overwrite_end in Hd.
    - exists (lenN new). split; [ lia | ]. rewrite Hd. rewrite takeN_all, (dropN_all (lenN new) old) by lia. rewrite app_nil_r. rewrite <- !app_assoc. reflexivity.
    - exists k. split; [ auto | ]. rewrite Hd. rewrite <- !app_assoc. reflexivity. }
  destruct Hk as (k & Hk & Hdata). rewrite Hdata.
  destruct (patched_reads c' d o h s (lenN vs) more w' s2 L pad props k Hg Hwf Ht Hs2 Hlax (Hr ltac:(discriminate)) ltac:(fold ax; rewrite <- Hsh; exact Hs64) Hk more) as [ HE | HO ];
    fold ax in HE || fold ax in HO; [ now apply error_fine | ].
  unfold whole_or_error. rewrite cursor_run. fold ax new old in HO. rewrite HO. rewrite <- Hsh.
  destruct (from_parts_intro c' d shape o Hno (or_intror Hnb)) as (hd & Hfp). rewrite Hfp. cbn [nf_header nf_src].
  exists shape, more. apply from_parts_ok in Hfp as (P1 & P2 & P3 & _). split; [ exact Es | ]. split; [ exact Henc | ]. split; [ auto | ]. split; [ auto | ]. split; [ auto | ].
  unfold cur_rest. cbn [cur_data cur_pos]. set (hb := L ++ _). rewrite lenN_app. replace (lenN D + (lenN hb + lenN more - lenN more)) with (lenN (D ++ hb)) by (rewrite lenN_app; lia).
  rewrite app_assoc. now apply dropN_app.
Qed.

Lemma dec_min n : 0 < n -> 10 ^ (lenN (dec n) - 1) <= n.
Proof.
  intros Hn. destruct (N.le_gt_cases (10 ^ (lenN (dec n) - 1)) n) as [ | Hlt ]; auto. exfalso.
  replace (lenN (dec n) - 1) with (N.of_nat (List.length (dec n) - 1)) in Hlt by (unfold lenN; lia).
  pose proof (dec_length_bound _ _ Hlt) as Hb. destruct (List.length (dec n)) as [ | [ | k ] ] eqn:E; cbn in Hlt, Hb; lia.
Qed.
Lemma dec_some n : 1 <= lenN (dec n).
Proof. pose proof (dec_nonempty n). destruct (dec n); [ congruence | rewrite lenN_cons; lia ]. Qed.
Lemma small_numerals r n : n < 10 ^ 16 -> r < 10 ^ 16 -> lenN (dec (n / r)) + lenN (dec r) <= 17.
Proof.
  intros Hn Hr.
  assert (Hp : forall a, 10 ^ a < 10 ^ 16 -> a < 16) by (intros a Ha; apply N.pow_lt_mono_r_iff in Ha; lia).
  pose proof (dec_some r) as L1. pose proof (dec_some (n / r)) as L2.
  destruct (N.eq_dec r 0) as [ -> | Hr0 ]; [ destruct n; cbn; lia | ]. pose proof (dec_min r ltac:(lia)) as H1.
  assert (Hm : r * (n / r) <= n) by (apply N.mul_div_le; lia). set (rows := n / r) in *. clearbody rows.
  destruct (N.eq_dec rows 0) as [ -> | H0 ].
  - change (lenN (dec 0)) with 1. assert (10 ^ (lenN (dec r) - 1) < 10 ^ 16) as H2 by lia. apply Hp in H2. lia.
  - pose proof (dec_min rows ltac:(lia)) as H2.
    assert (H3 : 10 ^ ((lenN (dec rows) - 1) + (lenN (dec r) - 1)) < 10 ^ 16) by (rewrite N.pow_add_r; nia). apply Hp in H3. lia.
Qed.

Lemma interrupted_1d c c' t d o vs e D fuel r s' : wf_dtype d -> strings_fit (c_usize_max c) d -> Forall (has_type t) vs ->
  Forall (fun v => exists b, encode t d v = Some b) vs -> lenN vs < 2 ^ 64 -> (exists n, num_bytes c' d = Some n) ->
  session c t d o OneDimensional true vs e {| sk_data := D; sk_pos := lenN D; sk_fuel := fuel |} = (r, s') ->
  whole_or_error c' t d o OneDimensional vs (sk_data s') (lenN D).
Proof. intros. eapply (interrupted c c' t d o OneDimensional); eauto; cbn [roomy hint_ok growing]; auto. Qed.
Lemma interrupted_2d_fortran c c' t d k vs e D fuel r s' : wf_dtype d -> strings_fit (c_usize_max c) d -> Forall (has_type t) vs ->
  Forall (fun v => exists b, encode t d v = Some b) vs -> lenN vs < 2 ^ 64 -> k < 2 ^ 64 -> (exists n, num_bytes c' d = Some n) ->
  session c t d OrderFortran (TwoDimensional k) true vs e {| sk_data := D; sk_pos := lenN D; sk_fuel := fuel |} = (r, s') ->
  whole_or_error c' t d OrderFortran (TwoDimensional k) vs (sk_data s') (lenN D).
Proof. intros. eapply (interrupted c c' t d OrderFortran (TwoDimensional k)); eauto; try exact I; intros; exact I. Qed.
Lemma interrupted_2d_c c c' t d k vs e D fuel r s' : wf_dtype d -> strings_fit (c_usize_max c) d -> Forall (has_type t) vs ->
  Forall (fun v => exists b, encode t d v = Some b) vs -> lenN vs < 2 ^ 64 -> k < 2 ^ 64 -> (exists n, num_bytes c' d = Some n) ->
  lenN (dec (lenN vs / k)) + lenN (dec k) <= 17 ->
  session c t d OrderC (TwoDimensional k) true vs e {| sk_data := D; sk_pos := lenN D; sk_fuel := fuel |} = (r, s') ->
  whole_or_error c' t d OrderC (TwoDimensional k) vs (sk_data s') (lenN D).
Proof. intros. eapply (interrupted c c' t d OrderC (TwoDimensional k)); eauto; try exact I. intros _. now left. Qed.
Lemma interrupted_2d_c_safe c c' t d k vs e D fuel r s' : wf_dtype d -> strings_fit (c_usize_max c) d -> Forall (has_type t) vs ->
  Forall (fun v => exists b, encode t d v = Some b) vs -> lenN vs < 2 ^ 64 -> k < 2 ^ 64 -> (exists n, num_bytes c' d = Some n) ->
  ~ mistakable (lenN vs) k ->
  session c t d OrderC (TwoDimensional k) true vs e {| sk_data := D; sk_pos := lenN D; sk_fuel := fuel |} = (r, s') ->
  whole_or_error c' t d OrderC (TwoDimensional k) vs (sk_data s') (lenN D).
Proof.
  intros Hw Hsf Ht He Hn Hk Hb Hm H. eapply (interrupted c c' t d OrderC (TwoDimensional k)); eauto; try exact I. intros Hs. cbn [roomy variable_axis].
  cbn [final_shape] in Hs. destruct (N.eqb_spec k 0) as [ | Hk0 ]; [ cbn [orb] in Hs; congruence | ]. destruct (N.eqb_spec (lenN vs mod k) 0) as [ H0 | ]; [ | cbn in Hs; congruence ].
  assert (Hle : lenN vs / k <= lenN vs) by (apply N.div_le_upper_bound; nia). pose proof (dec_length_u64 (lenN vs / k) ltac:(lia)). pose proof (dec_length_u64 k Hk).
  unfold mistakable, numeral_length in Hm. lia.
Qed.
Lemma interrupted_2d_c_small c c' t d k vs e D fuel r s' : wf_dtype d -> strings_fit (c_usize_max c) d -> Forall (has_type t) vs ->
  Forall (fun v => exists b, encode t d v = Some b) vs -> lenN vs < 10 ^ 16 -> k < 10 ^ 16 -> (exists n, num_bytes c' d = Some n) ->
  session c t d OrderC (TwoDimensional k) true vs e {| sk_data := D; sk_pos := lenN D; sk_fuel := fuel |} = (r, s') ->
  whole_or_error c' t d OrderC (TwoDimensional k) vs (sk_data s') (lenN D).
Proof.
  intros Hw Hsf Ht He Hn Hk Hb H. assert (10 ^ 16 < 2 ^ 64) by reflexivity.
  apply (interrupted_2d_c c c' t d k vs e D fuel r s'); auto; try lia. now apply small_numerals.
Qed.
