(** Proofs for C87. *)
From Verif Require Import M_Base M_Text M_TypeStr M_PyLit M_IO M_Header M_Read M_Serialize M_DTypeErr M_NpyReader M_Write M_Npz M_Sparse M_Zip M_ZipSparse.
From Verif Require Import S_Text S_TypeStr S_DType S_Shape S_Header S_Elem S_Open S_Npz S_Sparse S_Archive S_Defect S_Zip S_ZipSparse.
From Verif Require Import P_Base P_Text P_Header P_IO P_Codec P_Open P_Npz P_Archive P_Broken P_Zip.
Open Scope N_scope.

(** [F] asks for the names in this order, and ends early only without a result. *)
Inductive asks {A} : list text -> (lookup -> res A) -> Prop :=
| asks_ret F v : (forall look, F look = Ok v) -> asks [] F
| asks_stop ms F r : (forall v, r <> Ok v) -> (forall look, F look = r) -> asks ms F
| asks_more m ms F G : (forall look, F look = let* o := look m in G o look) -> (forall o, asks ms (G o)) -> asks (m :: ms) F.
Lemma asks_eq {A} ms (F G : lookup -> res A) : (forall look, F look = G look) -> asks ms G -> asks ms F.
Proof.
  intros E H. inversion H; subst.
  - eapply asks_ret. intros look. rewrite E. auto.
  - eapply asks_stop; [ eassumption | ]. intros look. rewrite E. auto.
  - eapply asks_more; [ | eassumption ]. intros look. rewrite E. auto.
Qed.
Lemma asks_bind {A B} ms ms' (F : lookup -> res A) (K : A -> lookup -> res B) : asks ms F -> (forall v, asks ms' (K v)) -> asks (ms ++ ms') (fun look => let* v := F look in K v look).
Proof.
  intros H HK. induction H as [ F v E | ms F r Hr E | m ms F G E H IH ]; cbn [app].
  - apply (asks_eq ms' _ (K v)); [ | apply HK ]. intros look. now rewrite E.
  - destruct r as [ v | e | ]; [ now destruct (Hr v) | | ].
    + apply (asks_stop _ _ (Err e)); [ discriminate | ]. intros look. now rewrite E.
    + apply (asks_stop _ _ Panic); [ discriminate | ]. intros look. now rewrite E.
  - apply (asks_more m (ms ++ ms') _ (fun o look => let* v := G o look in K v look)).
    + intros look. rewrite E. destruct (look m); reflexivity.
    + exact IH.
Qed.
Lemma asks_const {A} (r : res A) : asks [] (fun _ => r).
Proof. destruct r as [ v | e | ]; [ now apply (asks_ret _ v) | apply (asks_stop _ _ (Err e)); [ discriminate | reflexivity ] | apply (asks_stop _ _ Panic); [ discriminate | reflexivity ] ]. Qed.
Lemma asks_one {A} m (F : lookup -> res A) (k : option npy_file -> res A) : (forall look, F look = let* o := look m in k o) -> asks [m] F.
Proof. intros E. apply (asks_more m [] F (fun o _ => k o)); [ exact E | ]. intros o. apply asks_const. Qed.

(** What follows from it. *)
Lemma asks_same {A} ms (F : lookup -> res A) look look' : asks ms F -> (forall m, In m ms -> look m = look' m) -> F look = F look'.
Proof.
  intros H. revert look look'. induction H as [ F v E | ms F r Hr E | m ms F G E H IH ]; intros look look' S; rewrite !E; try reflexivity.
  rewrite (S m) by now left. destruct (look' m) as [ o | | ]; cbn [bind]; try reflexivity. apply IH. intros m' Hm. apply S. now right.
Qed.
Lemma asks_damaged {A} pre m post (F : lookup -> res A) look e : asks (pre ++ m :: post) F -> look m = Err e ->
  (forall look' v, (forall n, In n pre -> look n = look' n) -> F look' = Ok v -> F look = Err e)
  /\ (F look = Err e \/ forall look', (forall n, In n pre -> look n = look' n) -> F look' = F look).
Proof.
  revert F. induction pre as [ | p pre IH ]; intros F H He; cbn [app] in H; inversion H as [ F0 v0 E | ms F0 r Hr E | m0 ms F0 G E HG ]; subst.
  - split; [ intros look' v _ K; rewrite E in K; now destruct (Hr v) | right; intros look' _; now rewrite !E ].
  - assert (K : F look = Err e) by (rewrite E, He; reflexivity). split; [ auto | now left ].
  - split; [ intros look' v _ K; rewrite E in K; now destruct (Hr v) | right; intros look' _; now rewrite !E ].
  - destruct (look p) as [ o | e' | ] eqn:Ep.
    + destruct (IH (G o) (HG o) He) as (I1 & I2). assert (EF : F look = G o look) by (rewrite E, Ep; reflexivity). rewrite EF. split.
      * intros look' v S K. apply (I1 look' v); [ intros n Hn; apply S; now right | ]. rewrite E, <- (S p), Ep in K by now left. exact K.
      * destruct I2 as [ I2 | I2 ]; [ now left | right ]. intros look' S. rewrite E, <- (S p), Ep by now left. cbn. apply I2. intros n Hn. apply S. now right.
    + assert (EF : forall look', (forall n, In n (p :: pre) -> look n = look' n) -> F look' = Err e') by (intros look' S; rewrite E, <- (S p (or_introl eq_refl)), Ep; reflexivity).
      assert (EL : F look = Err e') by (apply EF; auto). split; [ intros look' v S K; rewrite (EF look' S) in K; discriminate K | right; intros look' S; now rewrite (EF look' S) ].
    + assert (EF : forall look', (forall n, In n (p :: pre) -> look n = look' n) -> F look' = Panic) by (intros look' S; rewrite E, <- (S p (or_introl eq_refl)), Ep; reflexivity).
      assert (EL : F look = Panic) by (apply EF; auto). split; [ intros look' v S K; rewrite (EF look' S) in K; discriminate K | right; intros look' S; now rewrite (EF look' S) ].
Qed.

(** The pieces. *)
Lemma asks_ndim c name n : asks [name] (fun look => extract_and_check_ndim_by c look name n).
Proof. eapply asks_one. intros look. reflexivity. Qed.
Lemma asks_then {A B} ms (F : lookup -> res A) (k : A -> res B) : asks ms F -> asks ms (fun look => let* v := F look in k v).
Proof. intros H. rewrite <- (app_nil_r ms). apply (asks_bind ms [] F (fun v _ => k v) H). intros v. apply asks_const. Qed.
Lemma asks_format c : asks [lit "format"] (the_format_by c).
Proof. unfold the_format_by, extract_scalar_by. apply asks_then, asks_then, asks_ndim. Qed.
Lemma asks_expect c b : asks [lit "format"] (fun look => expect_format_by c look b).
Proof. apply asks_then, asks_format. Qed.
Lemma asks_signed c name : asks [name] (fun look => extract_signed_indices_by c look name).
Proof. apply asks_then, asks_ndim. Qed.
Lemma asks_indices c name : asks [name] (fun look => extract_indices_by c look name).
Proof. apply asks_then, asks_ndim. Qed.
Lemma asks_usize c name : asks [name] (fun look => extract_usize_indices_by c look name).
Proof. apply asks_then, asks_indices. Qed.
Lemma asks_shape c name : asks [name] (fun look => extract_shape_by c look name).
Proof. apply asks_then, asks_indices. Qed.
Lemma asks_1d c t name : asks [name] (fun look => extract_1d_by c look t name).
Proof. apply asks_then, asks_ndim. Qed.
Lemma asks_nd c t name n : asks [name] (fun look => extract_nd_by c look t name n).
Proof. apply asks_then, asks_ndim. Qed.
Lemma asks_cons {A B} m ms (F : lookup -> res A) (K : A -> lookup -> res B) : asks [m] F -> (forall v, asks ms (K v)) -> asks (m :: ms) (fun look => let* v := F look in K v look).
Proof. exact (asks_bind [m] ms F K). Qed.

Definition read_by (f : format) (c : cfg) (t : rty) (look : lookup) : res sparse :=
  match f with
  | FCoo => let* m := coo_by c t look in Ok (Coo m)
  | FCsr => let* m := csr_by c t look in Ok (Csr m)
  | FCsc => let* m := csc_by c t look in Ok (Csc m)
  | FDia => let* m := dia_by c t look in Ok (Dia m)
  | FBsr => let* m := bsr_by c t look in Ok (Bsr m)
  end.
Lemma zread_by f c t a : zread_as f c t a = read_by f c t (zby_name c a).
Proof. destruct f; reflexivity. Qed.
Lemma read_by_plain f c t a : read_by f c t (by_name c a) = read_as f c t a.
Proof. destruct f; reflexivity. Qed.
Lemma asks_members f c t : asks (members f) (read_by f c t).
Proof.
  destruct f; unfold members, read_by; cbn [app]; apply asks_then.
  - apply (asks_cons _ _ _ _ (asks_expect c _)). intros _. apply (asks_cons _ _ _ _ (asks_shape c _)). intros s. apply (asks_cons _ _ _ _ (asks_indices c _)). intros r.
    apply (asks_cons _ _ _ _ (asks_indices c _)). intros k. apply asks_then, asks_1d.
  - apply (asks_cons _ _ _ _ (asks_expect c _)). intros _. apply (asks_cons _ _ _ _ (asks_shape c _)). intros s. apply (asks_cons _ _ _ _ (asks_indices c _)). intros r.
    apply (asks_cons _ _ _ _ (asks_usize c _)). intros k. apply asks_then, asks_1d.
  - apply (asks_cons _ _ _ _ (asks_expect c _)). intros _. apply (asks_cons _ _ _ _ (asks_shape c _)). intros s. apply (asks_cons _ _ _ _ (asks_indices c _)). intros r.
    apply (asks_cons _ _ _ _ (asks_usize c _)). intros k. apply asks_then, asks_1d.
  - apply (asks_cons _ _ _ _ (asks_expect c _)). intros _. apply (asks_cons _ _ _ _ (asks_shape c _)). intros s. apply (asks_cons _ _ _ _ (asks_signed c _)). intros r.
    apply asks_then, asks_nd.
  - apply (asks_cons _ _ _ _ (asks_expect c _)). intros _. apply (asks_cons _ _ _ _ (asks_shape c _)). intros s. apply (asks_cons _ _ _ _ (asks_indices c _)). intros r.
    apply (asks_cons _ _ _ _ (asks_usize c _)). intros k. apply asks_then, asks_nd.
Qed.

(** Archives. *)
Lemma same_look c a b name : same_entry a b name -> zby_name c a name = zby_name c b name.
Proof.
  intros S. unfold zby_name, file_name_from_array_name. assert (E : zopen (name ++ lit ".npy") a = zopen (name ++ lit ".npy") b); [ | now rewrite E ].
  destruct (zopen (name ++ lit ".npy") a) as [ x | ] eqn:Ea.
  - apply zopen_exact, S, zopen_exact in Ea. congruence.
  - destruct (zopen (name ++ lit ".npy") b) as [ x | ] eqn:Eb; [ | reflexivity ]. apply zopen_exact, S, zopen_exact in Eb. congruence.
Qed.
Lemma damaged_look c a name z : damaged a name z -> zby_name c a name = Err (complaint z).
Proof. intros H. apply zopen_exact in H. unfold zby_name, file_name_from_array_name. rewrite H. destruct z; reflexivity. Qed.
Lemma plain_look c a b name : (forall bs, last_entry a (name ++ lit ".npy") (inl bs) <-> entry b name bs) -> (forall z, ~ damaged a name z) -> zby_name c a name = by_name c b name.
Proof.
  intros S D. unfold zby_name, by_name, file_name_from_array_name. destruct (zopen (name ++ lit ".npy") a) as [ [ bs | z ] | ] eqn:Ea.
  - apply zopen_exact, S, entry_find in Ea. unfold file_name_from_array_name in Ea. now rewrite Ea.
  - apply zopen_exact in Ea. now destruct (D z).
  - destruct (zip_find (name ++ lit ".npy") b) as [ bs | ] eqn:Eb; [ | reflexivity ]. change (zip_find (file_name_from_array_name name) b = Some bs) in Eb. apply entry_find, S, zopen_exact in Eb. congruence.
Qed.
Lemma z_same f c t a b : (forall n, In n (members f) -> same_entry a b n) -> zread_as f c t a = zread_as f c t b.
Proof. intros S. rewrite !zread_by. apply (asks_same (members f)); [ apply asks_members | ]. intros n Hn. apply same_look. auto. Qed.
Lemma z_intact f c t a b : (forall n, In n (members f) -> (forall bs, last_entry a (n ++ lit ".npy") (inl bs) <-> entry b n bs) /\ forall z, ~ damaged a n z) ->
  zread_as f c t a = read_as f c t b.
Proof.
  intros S. rewrite zread_by, <- read_by_plain. apply (asks_same (members f)); [ apply asks_members | ]. intros n Hn. destruct (S n Hn) as (S1 & S2). now apply plain_look.
Qed.
Lemma z_damaged f c t a pre m post z : members f = pre ++ m :: post -> damaged a m z ->
  (forall b v, (forall n, In n pre -> same_entry a b n) -> zread_as f c t b = Ok v -> zread_as f c t a = Err (complaint z))
  /\ (zread_as f c t a = Err (complaint z) \/ forall b, (forall n, In n pre -> same_entry a b n) -> zread_as f c t b = zread_as f c t a).
Proof.
  intros Em D. pose proof (asks_members f c t) as K. rewrite Em in K. destruct (asks_damaged pre m post _ (zby_name c a) _ K (damaged_look c a m z D)) as (K1 & K2). rewrite !zread_by. split.
  - intros b v S H. rewrite zread_by in H. apply (K1 (zby_name c b) v); [ | exact H ]. intros n Hn. apply same_look. auto.
  - destruct K2 as [ K2 | K2 ]; [ now left | right ]. intros b S. rewrite zread_by. apply K2. intros n Hn. apply same_look. auto.
Qed.
Lemma z_ok f c t a v : zread_as f c t a = Ok v -> forall m z, In m (members f) -> ~ damaged a m z.
Proof.
  intros H m z Hm D. apply in_split in Hm as (pre & post & E). destruct (z_damaged f c t a pre m post z E D) as (K & _).
  rewrite (K a v) in H; [ discriminate H | intros n _ x; reflexivity | exact H ].
Qed.
(** The reader that finds out the format. *)
Definition dispatch (b : bytes) (c : cfg) (t : rty) (look : lookup) : res sparse :=
  match find (fun f => eqb_list b (format_name f)) [FCoo; FCsc; FCsr; FDia; FBsr] with
  | Some f => read_by f c t look
  | None => Err (EData (lit "bad format: " ++ show_format b))
  end.
Lemma any_by c t look : sparse_by c t look = let* b := the_format_by c look in dispatch b c t look.
Proof.
  unfold sparse_by, dispatch. destruct (the_format_by c look) as [ b | | ]; cbn [bind find format_name]; try reflexivity.
  destruct (eqb_list b (lit "coo")); [ reflexivity | ]. destruct (eqb_list b (lit "csc")); [ reflexivity | ]. destruct (eqb_list b (lit "csr")); [ reflexivity | ].
  destruct (eqb_list b (lit "dia")); [ reflexivity | ]. destruct (eqb_list b (lit "bsr")); reflexivity.
Qed.
Ltac kind_step H :=
  match type of H with context [ expect_format_by ?c ?look ?b ] => let u := fresh "u" in destruct (expect_format_by c look b) as [ u | | ]; cbn [bind] in H; try discriminate H; exists u; split; [ reflexivity | ] end;
  match type of H with bind ?x _ = _ => let m := fresh "m" in destruct x as [ m | | ]; cbn [bind] in H; try discriminate H; apply Ok_inj in H; subst; reflexivity end.
Lemma read_by_kind f c t look v : read_by f c t look = Ok v -> format_of v = f /\ the_format_by c look = Ok (format_name f).
Proof.
  intros H. assert (KF : exists u, expect_format_by c look (format_name f) = Ok u /\ format_of v = f).
  { destruct f; unfold read_by, coo_by, csr_by, csc_by, dia_by, bsr_by in H; cbn [format_name]; kind_step H. }
  destruct KF as (u & HE & HF). split; [ exact HF | ]. unfold expect_format_by in HE. destruct (the_format_by c look) as [ b | | ]; cbn [bind] in HE; try discriminate HE.
  destruct (eqb_list b (format_name f)) eqn:E; [ | discriminate HE ]. apply eqb_list_eq in E. now subst b.
Qed.
Lemma any_of_format c t look f : the_format_by c look = Ok (format_name f) -> sparse_by c t look = read_by f c t look.
Proof. intros H. rewrite any_by, H. cbn [bind]. unfold dispatch. destruct f; reflexivity. Qed.
Lemma any_ok c t a v : zsparse_from_npz c t a = Ok v <-> zread_as (format_of v) c t a = Ok v.
Proof.
  unfold zsparse_from_npz. rewrite zread_by. split; intros H.
  - rewrite any_by in H. destruct (the_format_by c (zby_name c a)) as [ b | | ] eqn:E; cbn [bind] in H; try discriminate H. unfold dispatch in H.
    destruct (find _ _) as [ f | ] eqn:Ef; [ | discriminate H ]. destruct (read_by_kind _ _ _ _ _ H) as (-> & _). exact H.
  - destruct (read_by_kind _ _ _ _ _ H) as (_ & HF). now rewrite (any_of_format c t _ _ HF).
Qed.
Lemma any_damaged f c t a b pre m post z v : members f = pre ++ m :: post -> damaged a m z ->
  (forall n, In n pre -> same_entry a b n) -> zsparse_from_npz c t b = Ok v -> format_of v = f -> zsparse_from_npz c t a = Err (complaint z).
Proof.
  intros Em D S Hb Hv. apply any_ok in Hb. rewrite Hv in Hb. pose proof (proj1 (z_damaged f c t a pre m post z Em D) b v S Hb) as Ha. unfold zsparse_from_npz.
  rewrite zread_by in Ha, Hb. destruct (read_by_kind _ _ _ _ _ Hb) as (_ & HF). destruct pre as [ | p pre ].
  - assert (m = lit "format") as -> by (destruct f; cbn [members app] in Em; now injection Em). rewrite any_by.
    assert (E : the_format_by c (zby_name c a) = Err (complaint z)); [ | now rewrite E ].
    unfold the_format_by, extract_scalar_by, extract_and_check_ndim_by. rewrite (damaged_look c a _ z D). reflexivity.
  - assert (p = lit "format") as -> by (destruct f; cbn [members app] in Em; now injection Em).
    rewrite (any_of_format c t _ f); [ exact Ha | ]. rewrite <- HF. apply (asks_same [lit "format"] (the_format_by c) _ _ (asks_format c)). intros n [ <- | [] ]. apply same_look, S. now left.
Qed.
