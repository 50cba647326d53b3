(** Proofs about the derive macros. *)
From Verif Require Import M_Base M_Text M_TypeStr M_IO M_Header M_Read M_Serialize M_Derive S_Derive.
From Verif Require Import P_Base P_IO P_Elem.
Open Scope N_scope.

Lemma unraw_name n : ~ In 35 n -> unraw n = n.
Proof. intros H. destruct n as [ | a n ]; auto. destruct n as [ | b n ]. { cbn. destruct a as [ | p ]; auto. repeat (destruct p; auto). }
  destruct (N.eq_dec b 35) as [ -> | Hb ]; [ exfalso; apply H; right; left; reflexivity | ].
  cbn [unraw]. destruct (N.eq_dec a 114) as [ -> | Ha ].
  - destruct b as [ | p ]; auto. repeat (destruct p; auto). congruence.
  - destruct a as [ | p ]; auto. repeat (destruct p; auto). congruence.
Qed.
Lemma unraw_spelled x n : spelled x n -> unraw x = n.
Proof. intros (H & [ -> | -> ]); [ now apply unraw_name | ]. change (unraw n = n). now apply unraw_name. Qed.

Lemma declares_extract d fields : declares d fields -> exists xs, fields_extract d = Ok {| fd_idents := xs; fd_names := map fst fields; fd_types := map snd fields |} /\ map unraw xs = map fst fields.
Proof.
  destruct d as [ fs | [ | t ts ] | | | ]; cbn [declares fields_extract]; try contradiction; intros H.
  - exists (map fst fs). enough (map (fun f => unraw (fst f)) fs = map fst fields /\ map snd fs = map snd fields) as (A & B).
    { split; [ now rewrite A, B | now rewrite map_map ]. }
    induction H as [ | f g fs fields (H1 & H2) _ (IH1 & IH2) ]; cbn [map]; [ auto | ]. split; [ rewrite IH1 | rewrite IH2; now rewrite H2 ]. f_equal. now apply unraw_spelled.
  - subst. now exists [].
  - subst. now exists [].
Qed.

(** * Lists *)
Lemma in_removelast {A} (a : A) l : In a (removelast l) <-> exists before after, l = before ++ a :: after /\ after <> [].
Proof.
  induction l as [ | b l IH ]. { split; [ intros [] | intros ([ | ? ? ] & ? & [=] & _) ]. }
  cbn [removelast]. destruct l as [ | b' l ].
  - split; [ intros [] | ]. intros ([ | x before ] & after & H & Ha); cbn in H; [ injection H as _ <-; congruence | ]. injection H as _ H. now destruct before.
  - split.
    + intros [ <- | H ]; [ exists [], (b' :: l); split; [ reflexivity | discriminate ] | ]. apply IH in H as (before & after & -> & Ha). exists (b :: before), after. auto.
    + intros ([ | x before ] & after & H & Ha); cbn in H; injection H as -> H; [ now left | right ]. apply IH. eauto.
Qed.
Lemma all_some_seq {A} (f : A -> option nat) xs : forall k, (forall j x, nth_error xs j = Some x -> f x = Some (k + j)%nat) -> all_some (map f xs) = Some (seq k (List.length xs)).
Proof.
  induction xs as [ | x xs IH ]; intros k H; [ reflexivity | ]. cbn [map all_some List.length seq]. rewrite (H O x eq_refl), Nat.add_0_r.
  rewrite (IH (S k)); [ reflexivity | ]. intros j y Hy. rewrite (H (S j) y Hy). f_equal. lia.
Qed.
Lemma all_some_none {A B} (f : A -> option B) xs x : In x xs -> f x = None -> all_some (map f xs) = None.
Proof. induction xs as [ | y xs IH ]; [ intros [] | ]. intros [ -> | H ] Hx; cbn [map all_some]; [ now rewrite Hx | ]. rewrite (IH H Hx). now destruct (f y). Qed.
Lemma all_some_all {A} (l : list A) : forall pre, all_some (map (nth_error (pre ++ l)) (seq (List.length pre) (List.length l))) = Some l.
Proof.
  induction l as [ | a l IH ]; intros pre; [ reflexivity | ]. cbn [List.length seq map all_some]. rewrite nth_error_app2, Nat.sub_diag by lia. cbn [nth_error].
  specialize (IH (pre ++ [a])). rewrite <- app_assoc, app_length in IH. cbn [List.length app] in IH. replace (S (List.length pre)) with (List.length pre + 1)%nat by lia. rewrite IH. reflexivity.
Qed.

(** * Names *)
Lemma same_ident_eq a b : same_ident a b = true <-> unraw a = unraw b.
Proof. apply eqb_list_eq. Qed.
Lemma same_ident_refl a : same_ident a a = true.
Proof. now apply same_ident_eq. Qed.
Lemma position_none x l : ~ In (unraw x) (map unraw l) -> position x l = None.
Proof.
  induction l as [ | y l IH ]; intros H; [ reflexivity | ]. cbn [position]. destruct (same_ident x y) eqn:E.
  - apply same_ident_eq in E. exfalso. apply H. rewrite E. now left.
  - rewrite IH; [ reflexivity | ]. intros K. apply H. now right.
Qed.
Lemma position_at pre x post : NoDup (map unraw (pre ++ x :: post)) -> position x (pre ++ x :: post) = Some (List.length pre).
Proof.
  induction pre as [ | y pre IH ]; cbn [app position map List.length]; intros H; [ now rewrite same_ident_refl | ].
  apply NoDup_cons_iff in H as (H1 & H2). destruct (same_ident x y) eqn:E; [ | now rewrite IH ].
  apply same_ident_eq in E. exfalso. apply H1. rewrite <- E, map_app. apply in_or_app. right. now left.
Qed.
Lemma lookup_cons {A} x y (a : A) l : lookup x ((y, a) :: l) = if same_ident x y then Some a else lookup x l.
Proof. reflexivity. Qed.
Lemma lookup_combine {A} pre x post (ds1 : list A) d ds2 : NoDup (map unraw (pre ++ x :: post)) -> List.length pre = List.length ds1 ->
  lookup x (combine (pre ++ x :: post) (ds1 ++ d :: ds2)) = Some d.
Proof.
  revert ds1. induction pre as [ | y pre IH ]; intros [ | d1 ds1 ] H L; try discriminate; cbn [app combine lookup]; [ now rewrite same_ident_refl | ].
  cbn [app map] in H. apply NoDup_cons_iff in H as (H1 & H2). destruct (same_ident x y) eqn:E; [ | apply IH; auto ].
  apply same_ident_eq in E. exfalso. apply H1. rewrite <- E, map_app. apply in_or_app. right. now left.
Qed.

(** * The function [read_one] that is generated *)
Notation sreader := (lit "reader"). Notation sfunc := (lit "func").
Definition body (xs : list ident) : list read_stmt := flat_map (fun x => [LetFunc sfunc; LetCall x sfunc x sreader]) xs.
Fixpoint final (xs : list ident) (k : nat) (scope : list (ident * meaning)) : list (ident * meaning) :=
  match xs with [] => scope | x :: xs' => final xs' (S k) ((x, MValue k) :: (sfunc, MFunc) :: scope) end.
Lemma is_reader x : same_ident sreader x = true <-> unraw x = sreader.
Proof. rewrite same_ident_eq. change (unraw sreader) with sreader. split; congruence. Qed.
Lemma is_func x : same_ident sfunc x = true <-> unraw x = sfunc.
Proof. rewrite same_ident_eq. change (unraw sfunc) with sfunc. split; congruence. Qed.
Lemma resolve_field fields x xs k scope : resolve_reads fields (body (x :: xs)) k scope
  = match lookup sreader scope, position x fields with
    | Some MStream, Some p => match resolve_reads fields (body xs) (S k) ((x, MValue k) :: (sfunc, MFunc) :: scope) with Some (ps, s') => Some (p :: ps, s') | None => None end
    | _, _ => None
    end.
Proof. reflexivity. Qed.
Lemma reads_ok xs : forall pre scope, NoDup (map unraw (pre ++ xs)) -> lookup sreader scope = Some MStream -> ~ In sreader (removelast (map unraw xs)) ->
  resolve_reads (pre ++ xs) (body xs) (List.length pre) scope = Some (seq (List.length pre) (List.length xs), final xs (List.length pre) scope).
Proof.
  induction xs as [ | x xs IH ]; intros pre scope Hn Hs Hr; [ reflexivity | ].
  rewrite resolve_field, Hs, position_at by exact Hn. cbn [List.length seq final].
  destruct xs as [ | x' xs ]; [ reflexivity | ]. specialize (IH (pre ++ [x]) ((x, MValue (List.length pre)) :: (sfunc, MFunc) :: scope)).
  rewrite <- app_assoc, app_length, Nat.add_1_r in IH. cbn [app List.length] in IH. rewrite IH; [ reflexivity | exact Hn | | ].
  - rewrite !lookup_cons. destruct (same_ident sreader x) eqn:E; [ | exact Hs ]. apply is_reader in E. exfalso. apply Hr. cbn [map removelast]. left. exact E.
  - intros K. apply Hr. cbn [map]. cbn [map] in K. right. exact K.
Qed.
Lemma reads_stuck fields xs k scope : xs <> [] -> lookup sreader scope <> Some MStream -> resolve_reads fields (body xs) k scope = None.
Proof.
  destruct xs as [ | x xs ]; [ congruence | ]. intros _ H. rewrite resolve_field. destruct (lookup sreader scope) as [ [ | | | ] | ]; congruence.
Qed.
Lemma reads_bad fields xs : forall k scope, In sreader (removelast (map unraw xs)) -> resolve_reads fields (body xs) k scope = None.
Proof.
  induction xs as [ | x xs IH ]; intros k scope Hr; [ destruct Hr | ].
  destruct xs as [ | x' xs ]; [ destruct Hr | ].
  assert (Hstep : resolve_reads fields (body (x' :: xs)) (S k) ((x, MValue k) :: (sfunc, MFunc) :: scope) = None).
  { destruct Hr as [ E | Hr ]; [ | now apply IH ]. apply reads_stuck; [ discriminate | ]. rewrite lookup_cons. apply is_reader in E. rewrite E. discriminate. }
  rewrite resolve_field. destruct (lookup sreader scope) as [ [ | | | ] | ]; auto. destruct (position x fields); auto.
  rewrite Hstep. reflexivity.
Qed.
Lemma final_other xs : forall k scope y, NoDup (map unraw xs) -> unraw y <> sfunc ->
  lookup y (final xs k scope) = match position y xs with Some j => Some (MValue (k + j)) | None => lookup y scope end.
Proof.
  induction xs as [ | x xs IH ]; intros k scope y Hn Hy; [ reflexivity | ]. cbn [final position]. cbn [map] in Hn. apply NoDup_cons_iff in Hn as (H1 & H2). rewrite IH by auto.
  rewrite !lookup_cons. destruct (same_ident y x) eqn:E.
  - rewrite position_none; [ f_equal; f_equal; lia | ]. apply same_ident_eq in E. now rewrite E.
  - replace (same_ident y sfunc) with false; [ destruct (position y xs); cbn [option_map]; auto; f_equal; f_equal; lia | ].
    symmetry. apply not_true_iff_false. intros K. apply same_ident_eq in K. exact (Hy K).
Qed.
Lemma final_func xs : forall k scope y, unraw y = sfunc -> xs <> [] ->
  lookup y (final xs k scope) = if eqb_list (last (map unraw xs) []) sfunc then Some (MValue (k + (List.length xs - 1))) else Some MFunc.
Proof.
  induction xs as [ | x xs IH ]; intros k scope y Hy Hx; [ congruence | ]. destruct xs as [ | x' xs ].
  - cbn [final map last List.length]. rewrite !lookup_cons. unfold same_ident. rewrite Hy. rewrite Nat.sub_diag, Nat.add_0_r.
    destruct (eqb_list sfunc (unraw x)) eqn:E.
    + apply eqb_list_eq in E. rewrite <- E. reflexivity.
    + replace (eqb_list (unraw x) sfunc) with false; [ reflexivity | ]. symmetry. apply eqb_list_neq. apply eqb_list_neq in E. congruence.
  - change (final (x :: x' :: xs) k scope) with (final (x' :: xs) (S k) ((x, MValue k) :: (sfunc, MFunc) :: scope)). rewrite IH by (auto; discriminate).
    change (last (map unraw (x :: x' :: xs)) []) with (last (map unraw (x' :: xs)) []). cbn [List.length]. destruct (eqb_list _ _); auto. do 2 f_equal. lia.
Qed.
Lemma nth_last {A} (l : list A) j x d : nth_error l j = Some x -> ~ In x (removelast l) -> last l d = x /\ j = (List.length l - 1)%nat.
Proof.
  intros H Hn. apply nth_error_split in H as (before & after & -> & <-). destruct after as [ | a after ].
  - rewrite last_last, app_length. cbn [List.length]. split; [ reflexivity | lia ].
  - exfalso. apply Hn. apply in_removelast. exists before, (a :: after). split; [ reflexivity | discriminate ].
Qed.
Lemma resolves names types xs : map unraw xs = names -> NoDup names -> List.length types = List.length xs ->
  resolve_read (gen_read {| fd_idents := xs; fd_names := names; fd_types := types |})
  = if in_dec (list_eq_dec N.eq_dec) sreader (removelast names) then None else if in_dec (list_eq_dec N.eq_dec) sfunc (removelast names) then None else Some (seq 0 (List.length xs), seq 0 (List.length xs)).
Proof.
  intros Hx Hn Hl. unfold resolve_read, gen_read, gen_children. cbn [rc_readers rc_body rc_value fd_idents fd_types]. rewrite map_map.
  replace (map (fun x : ident * rty => fst (fst (x, fst x))) (combine xs types)) with xs.
  2:{ clear - Hl. revert types Hl. induction xs as [ | x xs IH ]; intros [ | t ts ] H; try discriminate; cbn; auto. f_equal. apply IH. now injection H. }
  fold (body xs). subst names. destruct (in_dec _ _ _) as [ Hr | Hr ]; [ now rewrite reads_bad | ].
  pose proof (reads_ok xs [] [(sreader, MStream)] Hn eq_refl Hr) as R. cbn [List.length app] in R. rewrite R. destruct (in_dec _ _ _) as [ Hf | Hf ].
  - apply in_removelast in Hf as (before & after & E & Ha).
    assert (exists y, In y xs /\ unraw y = sfunc) as (y & Hy & Hu). { assert (K : In sfunc (map unraw xs)) by (rewrite E; apply in_or_app; right; now left). apply in_map_iff in K as (y & ? & ?). eauto. }
    rewrite (all_some_none _ xs y Hy); [ reflexivity | ]. rewrite final_func; [ | exact Hu | now destruct xs ].
    replace (eqb_list (last (map unraw xs) []) sfunc) with false; [ reflexivity | ]. symmetry. apply eqb_list_neq. intros K. rewrite E in K, Hn.
    destruct after as [ | a after ]; [ congruence | ]. assert (In sfunc (a :: after)).
    { rewrite app_comm_cons || idtac. rewrite <- K. replace (before ++ sfunc :: a :: after) with ((before ++ [sfunc]) ++ a :: after) by now rewrite <- app_assoc.
      clear. rewrite (app_removelast_last (l := a :: after) []) by discriminate. rewrite app_assoc, last_last. apply in_or_app. right. now left. }
    apply NoDup_remove_2 in Hn. apply Hn. apply in_or_app. now right.
  - rewrite (all_some_seq _ xs 0); [ reflexivity | ]. intros j x Hj. destruct (list_eq_dec N.eq_dec (unraw x) sfunc) as [ E | E ].
    + rewrite final_func; [ | exact E | destruct xs; [ now destruct j | discriminate ] ].
      assert (Hj' : nth_error (map unraw xs) j = Some sfunc) by (rewrite nth_error_map, Hj; cbn; now rewrite E).
      destruct (nth_last _ j sfunc [] Hj' Hf) as (E1 & ->). replace (eqb_list _ _) with true by (symmetry; apply eqb_list_eq; exact E1). rewrite map_length. reflexivity.
    + rewrite final_other by auto. apply nth_error_split in Hj as (before & after & -> & <-). rewrite position_at by exact Hn. reflexivity.
Qed.

(** * The declaration *)
Lemma names_free_exact fields : names_free fields <-> ~ In sreader (removelast (map fst fields)) /\ ~ In sfunc (removelast (map fst fields)).
Proof.
  assert (K : forall n, In n (removelast (map fst fields)) <-> exists before after f, fields = before ++ f :: after /\ after <> [] /\ fst f = n).
  { intros n. rewrite in_removelast. split.
    - intros (before & after & E & Ha). apply map_eq_app in E as (l1 & l2 & -> & <- & E). apply map_eq_cons in E as (f & l3 & -> & <- & <-). exists l1, l3, f. repeat split; auto. now intros ->.
    - intros (before & after & f & -> & Ha & <-). exists (map fst before), (map fst after). rewrite map_app. split; [ reflexivity | now destruct after ]. }
  rewrite !K. unfold names_free. split.
  - intros H. split; intros (before & after & f & E & Ha & Hf); destruct (H before after f E Ha); auto.
  - intros (H1 & H2) before after f E Ha. split; intros Hf; [ apply H1 | apply H2 ]; exists before, after, f; auto.
Qed.
Lemma read_accepted p d fields : legal d fields -> (exists rc, derive_deserialize {| di_params := p; di_data := d |} = Derived rc) <-> p = 0 /\ names_free fields.
Proof.
  intros (Hd & Hn). destruct (declares_extract d fields Hd) as (xs & E & Hx). unfold derive_deserialize. cbn [di_data di_params]. rewrite E.
  destruct (N.eqb_spec p 0) as [ -> | Hp ]; cbn [negb]. 2:{ split; [ intros (? & [=]) | intros (? & _); congruence ]. }
  rewrite (resolves _ _ xs Hx Hn), names_free_exact by (rewrite <- (map_length unraw xs), Hx, !map_length; reflexivity).
  destruct (in_dec _ _ _) as [ H1 | H1 ]. { split; [ intros (? & [=]) | intros (_ & ? & _); contradiction ]. }
  destruct (in_dec _ _ _) as [ H2 | H2 ]. { split; [ intros (? & [=]) | intros (_ & _ & ?); contradiction ]. }
  split; [ auto | eauto ].
Qed.
Lemma read_derived p d fields rc : legal d fields -> derive_deserialize {| di_params := p; di_data := d |} = Derived rc ->
  exists xs, map unraw xs = map fst fields /\ rc = gen_read {| fd_idents := xs; fd_names := map fst fields; fd_types := map snd fields |}
  /\ resolve_read rc = Some (seq 0 (List.length xs), seq 0 (List.length xs)).
Proof.
  intros (Hd & Hn) H. destruct (declares_extract d fields Hd) as (xs & E & Hx). exists xs. split; [ exact Hx | ]. unfold derive_deserialize in H. cbn [di_data di_params] in H. rewrite E in H.
  destruct (negb (p =? 0)); [ discriminate | ].
  assert (R := resolves _ (map snd fields) xs Hx Hn ltac:(rewrite <- (map_length unraw xs), Hx, !map_length; reflexivity)).
  destruct (resolve_read _) eqn:E'; [ | discriminate ]. injection H as <-. split; [ reflexivity | ]. rewrite E'.
  destruct (in_dec _ _ _); [ discriminate | ]. destruct (in_dec _ _ _); [ discriminate | ]. exact R.
Qed.

(** * What the code does *)
Lemma fill_combine xs : forall fs, List.length xs = List.length fs -> fill_dtypes xs fs = Ok (combine xs (map snd fs)).
Proof. induction xs as [ | x xs IH ]; intros [ | (n, d) fs ] H; try discriminate; [ reflexivity | ]. cbn [fill_dtypes]. rewrite IH by (now injection H). reflexivity. Qed.
Lemma run_extract_exact names xs d : map unraw xs = names -> run_extract {| fdt_names := names; fdt_fields := xs |} d
  = Ok (let? dts := extract_field_dtypes names d in DOk (combine xs dts)).
Proof.
  intros Hx. unfold run_extract, extract_field_dtypes. destruct d as [ ts | n d | fs ]; try reflexivity. cbn [fdt_names fdt_fields].
  destruct (eqb_texts (map fst fs) names) eqn:E; cbn [negb]; [ | reflexivity ]. apply eqb_texts_eq in E.
  rewrite fill_combine; [ reflexivity | ]. rewrite <- (map_length unraw xs), Hx, <- E. apply map_length.
Qed.
Lemma run_children_exact {T} (make : rty -> dtype -> dres T) xs : forall pre types ds1 ds2,
  NoDup (map unraw (pre ++ xs)) -> List.length pre = List.length ds1 -> List.length types = List.length xs -> List.length ds2 = List.length xs ->
  run_children make (map (fun it => (it, fst it)) (combine xs types)) (combine (pre ++ xs) (ds1 ++ ds2))
  = Ok ((fix go (ts : list rty) (dts : list dtype) : dres (list T) :=
           match ts, dts with t :: ts', d :: dts' => let? r := make t d in let? rs := go ts' dts' in DOk (r :: rs) | _, _ => DOk [] end) types ds2).
Proof.
  induction xs as [ | x xs IH ]; intros pre [ | t types ] ds1 [ | d ds2 ] Hn L1 L2 L3; try discriminate; [ reflexivity | ].
  cbn [combine map run_children fst]. rewrite lookup_combine by auto. destruct (make t d) as [ r | e ]; [ | reflexivity ]. cbn [dbind].
  specialize (IH (pre ++ [x]) types (ds1 ++ [d]) ds2). rewrite <- !app_assoc in IH. cbn [app] in IH.
  rewrite IH; [ reflexivity | exact Hn | rewrite !app_length; cbn; lia | now injection L2 | now injection L3 ].
Qed.
Lemma extract_length names d dts : extract_field_dtypes names d = DOk dts -> List.length dts = List.length names.
Proof. unfold extract_field_dtypes. destruct d; try discriminate. destruct (eqb_texts _ _) eqn:E; [ | discriminate ]. apply eqb_texts_eq in E. intros [= <-]. now rewrite <- E, !map_length. Qed.
Definition inner_readers (r : dres treader) : dres (list treader) := match r with DOk (RdStruct rs) => DOk rs | DOk _ => DOk [] | DErr e => DErr e end.
Definition inner_writers (r : dres twriter) : dres (list twriter) := match r with DOk (WrStruct rs) => DOk rs | DOk _ => DOk [] | DErr e => DErr e end.
Lemma run_reader_exact c p d fields rc : legal d fields -> derive_deserialize {| di_params := p; di_data := d |} = Derived rc ->
  forall dt, run_reader c rc dt = Ok (inner_readers (reader c (RStruct fields) dt)).
Proof.
  intros Hl H dt. destruct (read_derived _ _ _ _ Hl H) as (xs & Hx & -> & _). destruct Hl as (_ & Hn). unfold run_reader. cbn [rc_dtypes gen_read gen_field_dtypes fd_names fd_idents].
  rewrite (run_extract_exact _ _ _ Hx). cbn [bind]. rewrite reader_struct. destruct (extract_field_dtypes _ _) as [ dts | e ] eqn:E; [ | reflexivity ]. cbn [dbind].
  apply extract_length in E. assert (Lx : List.length xs = List.length fields) by (rewrite <- (map_length unraw xs), Hx; apply map_length).
  rewrite map_length in E. unfold gen_read, gen_children. cbn [rc_readers fd_idents fd_types].
  assert (R : forall ds, List.length ds = List.length xs -> _) by (intros ds Ld; exact (run_children_exact (reader c) xs [] (map snd fields) [] ds ltac:(cbn [app]; now rewrite Hx) eq_refl ltac:(rewrite map_length; congruence) Ld)).
  cbn [app] in R. rewrite R by congruence. clear R.
  f_equal. clear - E. revert dts E. induction fields as [ | (n, t) fs IH ]; intros [ | dt dts ] E; try discriminate; [ reflexivity | ].
  cbn [map snd readers]. destruct (reader c t dt); [ | reflexivity ]. cbn [dbind]. specialize (IH dts ltac:(now injection E)).
  rewrite IH. destruct (readers c fs dts); reflexivity.
Qed.
Lemma read_calls_seq c rs : forall pre, read_calls c (pre ++ rs) (seq (List.length pre) (List.length rs)) = read_fields c rs.
Proof.
  induction rs as [ | r rs IH ]; intros pre; [ reflexivity | ]. cbn [List.length seq read_calls read_fields]. rewrite nth_error_app2, Nat.sub_diag by lia. cbn [nth_error].
  specialize (IH (pre ++ [r])). rewrite <- app_assoc, app_length, Nat.add_1_r in IH. cbn [app List.length] in IH. rewrite IH. reflexivity.
Qed.
Lemma read_fields_length c rs : forall input l rest, run (read_fields c rs) input = (Ok l, rest) -> List.length l = List.length rs.
Proof.
  induction rs as [ | r rs IH ]; intros input l rest; cbn [read_fields]; [ cbn; intros [= <- _]; reflexivity | ].
  rewrite run_bind. destruct (run (read_one c r) input) as ([ x | e | ], rest1); cbn [then_]; try discriminate.
  rewrite run_bind. destruct (run (read_fields c rs) rest1) as ([ xs | e | ], rest2) eqn:E; cbn [then_]; try discriminate.
  cbn [run]. intros H. apply pair_inj in H as (H & _). apply Ok_inj in H. subst l. cbn [List.length]. f_equal. eauto.
Qed.
Lemma readers_length c fs : forall dts rs, List.length dts = List.length fs -> readers c fs dts = DOk rs -> List.length rs = List.length fs.
Proof.
  induction fs as [ | (n, t) fs IH ]; intros [ | d dts ] rs L; try discriminate; cbn [readers]. { intros [= <-]. reflexivity. }
  destruct (reader c t d); [ | discriminate ]. cbn [dbind]. destruct (readers c fs dts) as [ rs' | e ] eqn:E; [ | discriminate ]. intros [= <-]. cbn [List.length]. f_equal. eapply IH; [ | exact E ]. now injection L.
Qed.
Lemma struct_readers c fields d rs : reader c (RStruct fields) d = DOk (RdStruct rs) -> List.length rs = List.length fields.
Proof.
  rewrite reader_struct. destruct (extract_field_dtypes _ _) as [ dts | e ] eqn:E; [ | discriminate ]. cbn [dbind]. destruct (readers c fields dts) eqn:E'; [ | discriminate ]. intros [= <-].
  eapply readers_length; [ | exact E' ]. apply extract_length in E. now rewrite map_length in E.
Qed.
Lemma run_read_one_exact c p d fields rc dt rs : legal d fields -> derive_deserialize {| di_params := p; di_data := d |} = Derived rc ->
  reader c (RStruct fields) dt = DOk (RdStruct rs) -> forall input, run (run_read_one c rc rs) input = run (read_one c (RdStruct rs)) input.
Proof.
  intros Hl H Hr input. destruct (read_derived _ _ _ _ Hl H) as (xs & Hx & -> & E). apply struct_readers in Hr.
  assert (Lx : List.length xs = List.length rs) by (rewrite <- (map_length unraw xs), Hx, map_length; auto).
  unfold run_read_one. pose proof (read_calls_seq c rs []) as Q. cbn [app List.length] in Q. rewrite E, read_one_struct, Lx, Q, !run_bind.
  destruct (run (read_fields c rs) input) as ([ l | e | ], rest) eqn:El; cbn [then_]; auto.
  rewrite <- (read_fields_length _ _ _ _ _ El). pose proof (all_some_all l []) as A. cbn [app List.length] in A. rewrite A. reflexivity.
Qed.

(** * Writing *)
Lemma resolves_write names types xs : map unraw xs = names -> NoDup names -> List.length types = List.length xs ->
  resolve_write xs (gen_write {| fd_idents := xs; fd_names := names; fd_types := types |}) = Some (map (fun k => (k, k)) (seq 0 (List.length xs))).
Proof.
  intros Hx Hn Hl. unfold resolve_write, gen_write, gen_children. cbn [wc_writers wc_body fd_idents fd_types]. rewrite !map_map.
  replace (map (fun x : ident * rty => fst (fst (x, fst x))) (combine xs types)) with xs.
  2:{ clear - Hl. revert types Hl. induction xs as [ | x xs IH ]; intros [ | t ts ] H; try discriminate; cbn; auto. f_equal. apply IH. now injection H. }
  subst names. clear Hl.
  assert (K : forall l pre, pre ++ l = xs -> all_some (map (fun x => resolve_write_stmt xs xs {| ws_method := lit "method"; ws_callee := lit "method"; ws_field := x; ws_w := lit "w"; ws_value := lit "value"; ws_member := x |}) l)
    = Some (map (fun k => (k, k)) (seq (List.length pre) (List.length l)))).
  { induction l as [ | x l IH ]; intros pre E; [ reflexivity | ]. cbn [map all_some]. unfold resolve_write_stmt at 1. cbn [ws_method ws_callee ws_field ws_w ws_value ws_member].
    change (lookup (lit "method") [(lit "method", MFunc); (lit "value", MSelf); (lit "w", MStream)]) with (Some MFunc).
    change (lookup (lit "w") [(lit "method", MFunc); (lit "value", MSelf); (lit "w", MStream)]) with (Some MStream).
    change (lookup (lit "value") [(lit "method", MFunc); (lit "value", MSelf); (lit "w", MStream)]) with (Some MSelf). cbn match.
    replace (position x xs) with (Some (List.length pre)) by (rewrite <- E; symmetry; apply position_at; now rewrite E). cbn match.
    rewrite (IH (pre ++ [x])) by now rewrite <- app_assoc. cbn [option_map List.length seq map]. rewrite app_length, Nat.add_1_r. reflexivity. }
  exact (K xs [] eq_refl).
Qed.
Lemma write_derived p d fields : legal d fields -> exists xs, map unraw xs = map fst fields
  /\ let fd := {| fd_idents := xs; fd_names := map fst fields; fd_types := map snd fields |} in
     fields_extract d = Ok fd /\ resolve_write xs (gen_write fd) = Some (map (fun k => (k, k)) (seq 0 (List.length xs)))
     /\ derive_serialize {| di_params := p; di_data := d |} = if p =? 0 then Derived (gen_write fd) else Rejected.
Proof.
  intros (Hd & Hn). destruct (declares_extract d fields Hd) as (xs & E & Hx). exists xs. split; [ exact Hx | ]. cbn zeta. split; [ exact E | ].
  assert (R := resolves_write _ (map snd fields) xs Hx Hn ltac:(rewrite <- (map_length unraw xs), Hx, !map_length; reflexivity)). split; [ exact R | ].
  unfold derive_serialize. cbn [di_data di_params]. rewrite E. destruct (p =? 0); cbn [negb]; [ | reflexivity ]. cbn [fd_idents]. rewrite R. reflexivity.
Qed.
Lemma write_accepted p d fields : legal d fields -> (exists wc, derive_serialize {| di_params := p; di_data := d |} = Derived wc) <-> p = 0.
Proof.
  intros Hl. destruct (write_derived p d fields Hl) as (xs & _ & _ & _ & ->). destruct (N.eqb_spec p 0) as [ -> | Hp ]; [ split; eauto | ]. split; [ intros (? & [=]) | congruence ].
Qed.
Lemma run_writer_exact c p d fields wc : legal d fields -> derive_serialize {| di_params := p; di_data := d |} = Derived wc ->
  forall dt, run_writer c wc dt = Ok (inner_writers (writer c (RStruct fields) dt)).
Proof.
  intros Hl H dt. destruct (write_derived p d fields Hl) as (xs & Hx & _ & _ & E0). rewrite E0 in H. destruct (p =? 0); [ | discriminate ]. injection H as <-. destruct Hl as (_ & Hn).
  unfold run_writer. cbn [wc_dtypes gen_write gen_field_dtypes fd_names fd_idents].
  rewrite (run_extract_exact _ _ _ Hx). cbn [bind]. rewrite writer_struct. destruct (extract_field_dtypes _ _) as [ dts | e ] eqn:E; [ | reflexivity ]. cbn [dbind].
  apply extract_length in E. assert (Lx : List.length xs = List.length fields) by (rewrite <- (map_length unraw xs), Hx; apply map_length).
  rewrite map_length in E. unfold gen_write, gen_children. cbn [wc_writers fd_idents fd_types].
  assert (R : forall ds, List.length ds = List.length xs -> _) by (intros ds Ld; exact (run_children_exact (writer c) xs [] (map snd fields) [] ds ltac:(cbn [app]; now rewrite Hx) eq_refl ltac:(rewrite map_length; congruence) Ld)).
  cbn [app] in R. rewrite R by congruence. clear R.
  f_equal. clear - E. revert dts E. induction fields as [ | (n, t) fs IH ]; intros [ | dt dts ] E; try discriminate; [ reflexivity | ].
  cbn [map snd writers]. destruct (writer c t dt); [ | reflexivity ]. cbn [dbind]. specialize (IH dts ltac:(now injection E)).
  rewrite IH. destruct (writers c fs dts); reflexivity.
Qed.
Lemma write_calls_seq c ws : forall pre l prel, List.length l = List.length ws -> List.length prel = List.length pre ->
  write_calls c (pre ++ ws) (prel ++ l) (map (fun k => (k, k)) (seq (List.length pre) (List.length ws))) = write_fields c ws l.
Proof.
  induction ws as [ | w ws IH ]; intros pre [ | x l ] prel L Lp; try discriminate; [ reflexivity | ]. cbn [List.length seq map write_calls write_fields].
  rewrite (nth_error_app2 pre), Nat.sub_diag by lia. rewrite (nth_error_app2 prel), Lp, Nat.sub_diag by lia. cbn [nth_error]. f_equal.
  specialize (IH (pre ++ [w]) l (prel ++ [x]) ltac:(now injection L)). rewrite <- !app_assoc, !app_length, !Nat.add_1_r in IH. cbn [app] in IH. apply IH. cbn [List.length]. lia.
Qed.
Lemma writers_length c fs : forall dts ws, List.length dts = List.length fs -> writers c fs dts = DOk ws -> List.length ws = List.length fs.
Proof.
  induction fs as [ | (n, t) fs IH ]; intros [ | d dts ] ws L; try discriminate; cbn [writers]. { intros [= <-]. reflexivity. }
  destruct (writer c t d); [ | discriminate ]. cbn [dbind]. destruct (writers c fs dts) as [ ws' | e ] eqn:E; [ | discriminate ]. intros [= <-]. cbn [List.length]. f_equal. eapply IH; [ | exact E ]. now injection L.
Qed.
Lemma run_write_one_exact c p fs fields wc dt ws : legal (StructNamed fs) fields -> derive_serialize {| di_params := p; di_data := StructNamed fs |} = Derived wc ->
  writer c (RStruct fields) dt = DOk (WrStruct ws) -> forall l, List.length l = List.length fields -> run_write_one c (map fst fs) wc ws l = write_one c (WrStruct ws) (XRec l).
Proof.
  intros Hl H Hw l L. destruct (write_derived p _ fields Hl) as (xs & Hx & Ex & R & E0). rewrite E0 in H. destruct (p =? 0); [ | discriminate ]. injection H as <-.
  assert (xs = map fst fs) as -> by (cbn [fields_extract] in Ex; apply Ok_inj in Ex; now injection Ex).
  assert (Lw : List.length ws = List.length fields).
  { rewrite writer_struct in Hw. destruct (extract_field_dtypes _ _) as [ dts | e ] eqn:E; [ | discriminate ]. cbn [dbind] in Hw. destruct (writers c fields dts) eqn:E'; [ | discriminate ].
    injection Hw as <-. eapply writers_length; [ | exact E' ]. apply extract_length in E. now rewrite map_length in E. }
  assert (Lx : List.length (map fst fs) = List.length ws) by (rewrite <- (map_length unraw), Hx, map_length; auto).
  unfold run_write_one. rewrite R, write_one_struct, Lx. apply (write_calls_seq c ws [] l []); [ congruence | reflexivity ].
Qed.
Lemma auto_exact p d fields : legal d fields -> derive_auto_serialize {| di_params := p; di_data := d |} = Derived fields.
Proof.
  intros (Hd & _). destruct (declares_extract d fields Hd) as (xs & E & _). unfold derive_auto_serialize. cbn [di_data]. rewrite E. unfold gen_auto. cbn [fd_names fd_types]. f_equal.
  clear. induction fields as [ | (n, t) fs IH ]; cbn; [ reflexivity | now rewrite IH ].
Qed.
Lemma run_auto_exact c fields : default_dtype c (RStruct fields) = match run_auto c fields with Some r => Some (let* fs := r in Ok (DRecord fs)) | None => None end.
Proof.
  cbn [default_dtype]. match goal with |- match ?g fields with _ => _ end = _ => assert (K : g fields = run_auto c fields) end; [ | now rewrite K ].
  induction fields as [ | (n, t) fs IH ]; [ reflexivity | ]. cbn [run_auto]. rewrite <- IH. reflexivity.
Qed.
