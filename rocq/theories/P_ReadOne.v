(** [read_one] against [decode]. *)
From Verif Require Import M_Base M_Text M_TypeStr M_IO M_Header M_Serialize S_TypeStr S_DType S_Shape S_Header S_Text S_Elem
  P_Base P_Text P_IO P_Shape P_Header P_Number P_Elem.
Open Scope N_scope.


(** A program that consumes exactly [n] bytes and computes [f] of them, or fails; it panics only if [P]. *)
Definition reads {A} (P : Prop) (p : rprog A) (n : N) (f : bytes -> option A) : Prop :=
  forall bs rest, lenN bs = n -> bytes_ok bs ->
  P /\ (exists rest', run p (bs ++ rest) = (Panic, rest'))
  \/ match f bs with
     | Some v => run p (bs ++ rest) = (Ok v, rest)
     | None => exists e rest', run p (bs ++ rest) = (Err e, rest')
     end.

Lemma reads_ext {A} P (p : rprog A) n f g : (forall bs, lenN bs = n -> bytes_ok bs -> f bs = g bs) -> reads P p n f -> reads P p n g.
Proof. intros E H bs rest Hl Hb. rewrite <- E by auto. now apply H. Qed.
Lemma reads_weaken {A} (P Q : Prop) (p : rprog A) n f : (P -> Q) -> reads P p n f -> reads Q p n f.
Proof. intros E H bs rest Hl Hb. destruct (H bs rest Hl Hb) as [ (HP & Hr) | Hr ]; auto. Qed.
Lemma reads_ret {A} P (a : A) : reads P (RRet a) 0 (fun _ => Some a).
Proof. intros bs rest Hl _. right. apply lenN_0 in Hl as ->. reflexivity. Qed.
Lemma reads_exact P n : reads P (read_exact n) n Some.
Proof. intros bs rest Hl _. right. now apply run_read_exact. Qed.
Lemma reads_vec (P : Prop) c n : (isize_max c < n -> P) -> reads P (read_vec c n) n Some.
Proof.
  intros H bs rest Hl Hb. unfold read_vec. destruct (N.ltb_spec (isize_max c) n); [ left; split; [ auto | eexists; reflexivity ] | ]. now apply reads_exact.
Qed.
Lemma reads_bind {A B} P (p : rprog A) (k : A -> rprog B) n m f g :
  reads P p n f -> (forall a, reads P (k a) m (g a)) ->
  reads P (rbind p k) (n + m) (fun bs => match f (takeN n bs) with Some a => g a (dropN n bs) | None => None end).
Proof.
  intros Hp Hk bs rest Hl Hb.
  assert (E : bs = takeN n bs ++ dropN n bs) by (symmetry; apply takeN_dropN).
  assert (H1 : lenN (takeN n bs) = n) by (rewrite lenN_takeN; lia).
  assert (H2 : lenN (dropN n bs) = m) by (rewrite lenN_dropN; lia).
  specialize (Hp (takeN n bs) (dropN n bs ++ rest) H1 (Forall_takeN _ _ _ Hb)).
  rewrite app_assoc, <- E in Hp. rewrite run_bind. destruct Hp as [ (HP & rest' & ->) | Hp ]; [ left; split; [ auto | eexists; reflexivity ] | ].
  destruct (f (takeN n bs)) as [ a | ].
  - rewrite Hp. cbn [then_]. apply Hk; auto. now apply Forall_dropN.
  - right. destruct Hp as (e & rest' & ->). cbn. eauto.
Qed.
Lemma reads_map {A B} P (p : rprog A) (h : A -> B) n f : reads P p n f -> reads P (let! x := p in RRet (h x)) n (fun bs => omap h (f bs)).
Proof.
  intros Hp bs rest Hl Hb. specialize (Hp bs rest Hl Hb). rewrite run_bind. destruct Hp as [ (HP & rest' & ->) | Hp ]; [ left; split; [ auto | eexists; reflexivity ] | ].
  right. destruct (f bs); cbn [omap].
  - rewrite Hp. reflexivity.
  - destruct Hp as (e & rest' & ->). cbn. eauto.
Qed.
(** Followed by a pure check. *)
Lemma reads_check {A B} P (p : rprog A) (k : A -> rprog B) n f (g : A -> option B) :
  reads P p n f -> (forall a, match g a with Some b => k a = RRet b | None => exists e, k a = RErr e end) ->
  reads P (rbind p k) n (fun bs => match f bs with Some a => g a | None => None end).
Proof.
  intros Hp Hk bs rest Hl Hb. specialize (Hp bs rest Hl Hb). rewrite run_bind. destruct Hp as [ (HP & rest' & ->) | Hp ]; [ left; split; [ auto | eexists; reflexivity ] | ].
  right. destruct (f bs) as [ a | ].
  - rewrite Hp. cbn [then_]. specialize (Hk a). destruct (g a); [ now rewrite Hk | ]. destruct Hk as (e & ->). cbn. eauto.
  - destruct Hp as (e & rest' & ->). cbn. eauto.
Qed.

(** Pieces. *)
Lemma all_some_app {A} (l1 l2 : list (option A)) :
  all_some (l1 ++ l2) = match all_some l1, all_some l2 with Some a, Some b => Some (a ++ b) | _, _ => None end.
Proof.
  induction l1 as [ | x l1 IH ]; cbn [all_some app]; [ now destruct (all_some l2) | ].
  destruct x; auto. rewrite IH. destruct (all_some l1); auto. destruct (all_some l2); auto.
Qed.
Lemma pieces_app k1 : forall k2 n bs, pieces (k1 + k2) n bs = pieces k1 n bs ++ pieces k2 n (dropN (N.of_nat k1 * n) bs).
Proof.
  induction k1 as [ | k1 IH ]; intros k2 n bs; [ reflexivity | ].
  cbn [pieces Nat.add app]. rewrite IH, dropN_dropN. do 4 f_equal. lia.
Qed.
Lemma pieces_length k : forall n bs, List.length (pieces k n bs) = k.
Proof. induction k; intros; cbn; auto. Qed.
Lemma pieces_in k : forall n bs x, lenN bs = N.of_nat k * n -> bytes_ok bs -> In x (pieces k n bs) -> lenN x = n /\ bytes_ok x.
Proof.
  induction k as [ | k IH ]; intros n bs x Hl Hb; cbn [pieces]; [ intros [] | ]. intros [ <- | Hin ].
  - split; [ rewrite lenN_takeN; lia | now apply Forall_takeN ].
  - apply (IH n (dropN n bs)); auto; [ rewrite lenN_dropN; lia | now apply Forall_dropN ].
Qed.
Lemma pieces_take k : forall n bs, pieces k n (takeN (N.of_nat k * n) bs) = pieces k n bs.
Proof.
  induction k as [ | k IH ]; intros n bs; auto. cbn [pieces]. f_equal.
  - rewrite takeN_takeN. f_equal. lia.
  - rewrite <- (IH n (dropN n bs)). f_equal.
    replace (N.of_nat (S k) * n) with (n + N.of_nat k * n) by lia. rewrite takeN_add.
    destruct (N.le_gt_cases n (lenN bs)).
    + rewrite dropN_app; auto. rewrite lenN_takeN. lia.
    + rewrite (dropN_all n bs) by lia. unfold takeN at 2. rewrite firstn_nil, app_nil_r. rewrite takeN_all by lia.
      rewrite dropN_all by lia. unfold takeN. now rewrite firstn_nil.
Qed.

Lemma reads_replicate {A} P (p : rprog A) n f k : reads P p n f ->
  reads P (rreplicate k p) (N.of_nat k * n) (fun bs => all_some (map f (pieces k n bs))).
Proof.
  intros Hp. induction k as [ | k IH ]; [ intros bs rest Hl _; right; apply lenN_0 in Hl as ->; reflexivity | ].
  replace (N.of_nat (S k) * n) with (n + N.of_nat k * n) by lia. cbn [rreplicate].
  eapply reads_ext; [ | apply reads_bind; [ exact Hp | intros a; apply reads_map; exact IH ] ].
  intros bs Hl Hb. cbn [pieces map all_some]. destruct (f (takeN n bs)); auto.
Qed.

Lemma all_some_check {A} (g : A -> bool) l : all_some (map (fun x => if g x then Some x else None) l) = if forallb g l then Some l else None.
Proof.
  induction l as [ | x l IH ]; auto. cbn [map all_some forallb]. destruct (g x); cbn [andb]; auto. rewrite IH. destruct (forallb g l); auto.
Qed.

(** Trailing zeros. *)
Lemma truncate_snoc l x : truncate_trailing_nuls (l ++ [x]) = if x =? 0 then truncate_trailing_nuls l else l ++ [x].
Proof.
  induction l as [ | y l IH ]; cbn [app truncate_trailing_nuls].
  - destruct (x =? 0); reflexivity.
  - rewrite IH. destruct (x =? 0); auto. destruct (l ++ [x]) eqn:E; auto. now destruct l.
Qed.
Lemma strip_snoc l x : strip (l ++ [x]) = if x =? 0 then strip l else l ++ [x].
Proof.
  unfold strip. rewrite rev_app_distr. cbn [rev app drop_zeros]. destruct x; cbn [N.eqb]; auto.
  now rewrite <- (rev_involutive l) at 2.
Qed.
Lemma truncate_strip l : truncate_trailing_nuls l = strip l.
Proof. induction l as [ | x l IH ] using rev_ind; [ reflexivity | ]. rewrite truncate_snoc, strip_snoc, IH. reflexivity. Qed.
Lemma strip_zeros l n : strip (l ++ repeatN 0 n) = strip l.
Proof.
  induction n as [ | n IH ] using N.peano_ind; [ now rewrite repeatN_0, app_nil_r | ].
  rewrite <- N.add_1_r, repeatN_add, app_assoc. change (repeatN 0 1) with [0]. now rewrite strip_snoc.
Qed.
(** What [strip] does, in words: the longest prefix not ending in zero. *)
Lemma strip_spec l : exists n, l = strip l ++ repeatN 0 n.
Proof.
  induction l as [ | x l IH ] using rev_ind; [ exists 0; reflexivity | ]. rewrite strip_snoc. destruct (N.eqb_spec x 0) as [ -> | Hx ].
  - destruct IH as (n & IH). exists (n + 1). rewrite repeatN_add, app_assoc, <- IH. reflexivity.
  - exists 0. now rewrite repeatN_0, app_nil_r.
Qed.
Lemma strip_end l l' : strip l <> l' ++ [0].
Proof.
  induction l as [ | x l IH ] using rev_ind; [ intros H; cbn in H; now destruct l' | ]. rewrite strip_snoc.
  destruct (N.eqb_spec x 0) as [ -> | Hx ]; auto. intros H. apply app_inj_tail in H as (_ & H). congruence.
Qed.
Lemma strip_id l : (forall l', l <> l' ++ [0]) -> strip l = l.
Proof.
  destruct l as [ | x l _ ] using rev_ind; [ reflexivity | ]. intros H. rewrite strip_snoc.
  destruct (N.eqb_spec x 0) as [ -> | Hx ]; auto. now destruct (H l).
Qed.
Lemma Forall_strip (P : N -> Prop) l : Forall P l -> Forall P (strip l).
Proof. destruct (strip_spec l) as (n & E). intros H. rewrite E in H. now apply Forall_app in H. Qed.
Lemma lenN_strip l : lenN (strip l) <= lenN l.
Proof. destruct (strip_spec l) as (n & E). rewrite E at 2. rewrite lenN_app. lia. Qed.

(** Dropping characters from the end. *)
Lemma fit_chars_spec s : forall cap, exists t, s = fit_chars cap s ++ t /\ lenN (utf8 (fit_chars cap s)) <= cap
  /\ match t with [] => True | ch :: _ => cap < lenN (utf8 (fit_chars cap s ++ [ch])) end.
Proof.
  induction s as [ | ch s IH ]; intros cap; cbn [fit_chars]; change utf8_octets with utf8_char.
  - exists []. repeat split. cbn. lia.
  - destruct (N.leb_spec (lenN (utf8_char ch)) cap).
    + destruct (IH (cap - lenN (utf8_char ch))) as (t & E & Hl & Ht). exists t. split; [ cbn [app]; congruence | ].
      cbn [utf8 flat_map app]. fold utf8. rewrite lenN_app.
      change (flat_map utf8_char (fit_chars (cap - lenN (utf8_char ch)) s)) with (utf8 (fit_chars (cap - lenN (utf8_char ch)) s)).
      split; [ lia | ]. destruct t; auto.
      change (flat_map utf8_char (fit_chars (cap - lenN (utf8_char ch)) s ++ [n])) with (utf8 (fit_chars (cap - lenN (utf8_char ch)) s ++ [n])).
      rewrite lenN_app. lia.
    + exists (ch :: s). split; [ reflexivity | ]. split; [ cbn; lia | ]. cbn [app utf8 flat_map]. rewrite app_nil_r. lia.
Qed.
Lemma pop_until_spec cap p t : lenN (utf8 p) <= cap -> match t with [] => True | ch :: _ => cap < lenN (utf8 (p ++ [ch])) end ->
  pop_until cap (rev (p ++ t)) = rev p.
Proof.
  intros Hp. induction t as [ | x t IH ] using rev_ind; intros Ht.
  - rewrite app_nil_r. destruct (rev p) as [ | y r ] eqn:E; auto. cbn [pop_until]. rewrite <- E, rev_involutive.
    replace (cap <? lenN (utf8 p)) with false by lia. reflexivity.
  - rewrite app_assoc, rev_app_distr. cbn [rev app pop_until]. rewrite rev_involutive.
    assert (Hbig : cap < lenN (utf8 ((p ++ t) ++ [x]))).
    { destruct t as [ | y t ]; cbn [app] in Ht; [ rewrite app_nil_r; lia | ].
      replace ((p ++ y :: t) ++ [x]) with ((p ++ [y]) ++ t ++ [x]) by (rewrite <- !app_assoc; reflexivity).
      rewrite (utf8_app (p ++ [y])), lenN_app. lia. }
    replace (cap <? lenN (utf8 ((p ++ t) ++ [x]))) with true by lia. apply IH.
    destruct t; cbn [app] in Ht; auto.
Qed.
Lemma pop_until_fit cap s : rev (pop_until cap (rev s)) = fit_chars cap s.
Proof.
  destruct (fit_chars_spec s cap) as (t & E & Hl & Ht). rewrite E at 1. rewrite pop_until_spec; auto. apply rev_involutive.
Qed.

(** * Scalars *)
Lemma reads_bits P c ts n : (ts_endianness ts = Irrelevant -> n = 1) ->
  reads P (read_bits c n (swap_for c ts)) n (fun bs => Some (number_of (ts_endianness ts) bs)).
Proof. intros Hi bs rest Hl Hb. right. now apply run_read_bits. Qed.

Lemma of_bits_signed s w v : of_bits s w v = if s then signed_of (8 * wbytes w) v else Z.of_N v.
Proof.
  unfold of_bits, signed_of. destruct s; cbn [andb]; auto.
  destruct w; cbn [wbytes];
  repeat match goal with |- context [2 ^ ?e] => let v := eval compute in (2 ^ e) in change (2 ^ e) with v end;
  repeat match goal with |- context [Z.pow ?b ?e] => let v := eval compute in (Z.pow b e) in change (Z.pow b e) with v end;
  match goal with |- (if ?a then _ else _) = (if ?b then _ else _) => destruct a eqn:?, b eqn:? end; lia.
Qed.

Lemma reads_units P c ts (g : N -> bool) (p : rprog N) k : ts_endianness ts <> Irrelevant ->
  p = (let! u := read_bits c 4 (swap_for c ts) in if g u then RRet u else RErr (out_of_range u)) \/
  p = (let! u := read_bits c 4 (swap_for c ts) in if g u then RRet u else RErr (EData (lit "invalid UTF-32 code unit: " ++ hex u))) ->
  reads P (rreplicate k p) (4 * N.of_nat k) (fun bs =>
    let us := map (number_of (ts_endianness ts)) (pieces k 4 bs) in if forallb g us then Some us else None).
Proof.
  intros He Hp. rewrite N.mul_comm.
  assert (H1 : reads P p 4 (fun bs => (fun u => if g u then Some u else None) (number_of (ts_endianness ts) bs))).
  { destruct Hp as [ -> | -> ].
    all: eapply reads_ext; [ | eapply reads_check with (g := fun u => if g u then Some u else None); [ apply (reads_bits P c ts 4); congruence | ] ].
    1, 3: intros; reflexivity.
    all: intros a; cbv beta; destruct (g a); eauto. }
  eapply reads_ext; [ | apply reads_replicate; exact H1 ].
  intros bs _ _. cbv beta zeta. rewrite <- all_some_check, map_map. reflexivity.
Qed.

Fixpoint strings_fit_fields (m : N) (fs : list (text * dtype)) : Prop :=
  match fs with [] => True | (_, ty) :: fs' => strings_fit m ty /\ strings_fit_fields m fs' end.
Lemma strings_fit_record m fs : strings_fit m (DRecord fs) = strings_fit_fields m fs.
Proof. induction fs as [ | (name, d) fs IH ]; [ reflexivity | ]. cbn [strings_fit_fields]. rewrite <- IH. reflexivity. Qed.
(** Too long for a [Vec]. *)
Lemma too_long c ts n : ts_char ts = TByteStr \/ ts_char ts = TRawData -> n <= ts_size ts -> isize_max c < n -> ~ strings_fit (c_usize_max c) (DPlain ts).
Proof.
  intros Hc Hn Hl H. cbn [strings_fit] in H. unfold isize_max in Hl.
  assert (ts_size ts <= c_usize_max c / 2) by (apply N.div_le_lower_bound; [ lia | ]; destruct Hc as [ Hc | Hc ]; now rewrite Hc in H). lia.
Qed.
Definition reads_item (c : cfg) (t : rty) (d : dtype) : Prop :=
  forall r, reader c t d = DOk r -> reads (~ strings_fit (c_usize_max c) d) (read_one c r) (size d) (decode t d).

Lemma legal_irrelevant ts : legal ts -> ts_endianness ts = Irrelevant ->
  match ts_char ts with
  | TInt | TUint => ts_size ts = 1
  | TFloat | TComplex | TTimeDelta | TDateTime | TUnicodeStr => False
  | _ => True
  end.
Proof. unfold legal. intros H E. destruct (ts_char ts); try tauto; destruct H as (H & _); intuition. Qed.

Lemma run_read_bool bs rest : lenN bs = 1 -> bytes_ok bs ->
  match (match bs with [0] => Some (XBool false) | [1] => Some (XBool true) | _ => None end) with
  | Some v => run (read_prim {| c_big := false; c_usize_max := 0; c_ovf_panics := false |} PBool false) (bs ++ rest) = (Ok v, rest)
  | None => exists e rest', run (read_prim {| c_big := false; c_usize_max := 0; c_ovf_panics := false |} PBool false) (bs ++ rest) = (Err e, rest')
  end.
Proof.
  intros Hl Hb. destruct bs as [ | b [ | b' r ] ]; rewrite ?lenN_cons, ?lenN_nil in Hl; try lia.
  cbn [read_prim]. rewrite run_bind, (run_read_exact 1 [b] rest eq_refl). cbn [then_ nth].
  destruct b as [ | [ p | p | ] ]; try reflexivity.
  all: match goal with |- context [2 <=? ?x] => replace (2 <=? x) with true by lia end; cbn; eauto.
Qed.

Lemma takeN_min {A} cap m (l : list A) : lenN l = m -> takeN (N.min cap m) l = takeN cap l.
Proof.
  intros <-. unfold takeN, lenN. destruct (N.le_gt_cases cap (N.of_nat (List.length l))).
  - f_equal. lia.
  - rewrite !firstn_all2; auto; lia.
Qed.

Lemma reads_scalar c t d : wf_dtype d -> (forall n t', t <> RArray n t') -> (forall fs, t <> RStruct fs) -> reads_item c t d.
Proof.
  intros Hw Ha Hs r Hr.
  destruct t; try (now destruct (Ha _ _ eq_refl)); try (now destruct (Hs _ eq_refl)); cbn [reader] in Hr.
  - apply dbind_ok in Hr as (sw & H & [= <-]). apply prim_swap_ok in H as (ts & -> & Hp & ->). apply prim_supports_ok in Hp as (Hn & Hc).
    cbn [wf_dtype] in Hw. pose proof (legal_irrelevant ts Hw) as Hi.
    assert (Hi' : ts_endianness ts = Irrelevant -> wbytes w = 1).
    { intros E. specialize (Hi E). rewrite <- Hn. destruct signed; [ | now rewrite Hc in Hi ].
      destruct Hc as [ Hc | (_ & [ Hc | Hc ]) ]; rewrite Hc in Hi; [ exact Hi | destruct Hi | destruct Hi ]. }
    replace (size (DPlain ts)) with (wbytes w).
    2:{ cbn [size]. unfold scalar_size. rewrite Hn. destruct signed; [ | now rewrite Hc ].
        destruct Hc as [ -> | (_ & [ -> | -> ]) ]; reflexivity. }
    cbn [read_one read_prim]. eapply reads_ext; [ | eapply reads_map; now apply reads_bits ].
    intros bs _ _. cbn [omap decode]. now rewrite of_bits_signed.
  - apply dbind_ok in Hr as (sw & H & [= <-]). apply prim_swap_ok in H as (ts & -> & Hp & ->). apply prim_supports_ok in Hp as (Hn & Hc).
    cbn [wf_dtype] in Hw. pose proof (legal_irrelevant ts Hw) as Hi. rewrite Hc in Hi.
    replace (size (DPlain ts)) with (fbytes w) by (cbn [size]; unfold scalar_size; now rewrite Hn, Hc).
    cbn [read_one read_prim]. eapply reads_ext; [ | eapply reads_map; apply reads_bits; intros E; destruct (Hi E) ].
    intros bs _ _. reflexivity.
  - apply dbind_ok in Hr as (sw & H & [= <-]). apply prim_swap_ok in H as (ts & -> & Hp & ->). apply prim_supports_ok in Hp as (Hn & Hc).
    replace (size (DPlain ts)) with 1 by (cbn [size]; unfold scalar_size; now rewrite Hn, Hc).
    intros bs rest Hl Hb. right. exact (run_read_bool bs rest Hl Hb).
  - apply dbind_ok in Hr as (sw & H & [= <-]). apply complex_swap_ok in H as (ts & -> & Hn & Hc & ->).
    cbn [wf_dtype] in Hw. pose proof (legal_irrelevant ts Hw) as Hi. rewrite Hc in Hi.
    replace (size (DPlain ts)) with (cbytes w + cbytes w) by (cbn [size]; unfold scalar_size; rewrite Hn, Hc; lia).
    cbn [read_one].
    eapply reads_ext; [ | apply reads_bind; [ apply reads_bits; intros E; destruct (Hi E) | intros a; apply reads_map; apply reads_bits; intros E; destruct (Hi E) ] ].
    intros bs _ _. reflexivity.
  - apply dbind_ok in Hr as (i & H & [= <-]). apply byte_vec_ok in H as (ts & -> & Hm & [ (Hc & ->) | (Hc & ->) ]); cbn [fst snd].
    all: replace (size (DPlain ts)) with (ts_size ts) by (cbn [size]; unfold scalar_size; now rewrite Hc).
    all: cbn [read_one]; eapply reads_ext; [ | eapply reads_map; apply reads_vec; apply too_long; auto; lia ].
    all: intros bs _ _; cbn [omap decode]; rewrite Hc, ?truncate_strip; reflexivity.
  - apply dbind_ok in Hr as ([] & H & [= <-]). apply fixed_bytes_ok in H as (ts & -> & Hm & Hc & Hn).
    replace (size (DPlain ts)) with n by (cbn [size]; unfold scalar_size; now rewrite Hc).
    cbn [read_one]. eapply reads_ext; [ | eapply reads_map; apply reads_exact ]. intros bs _ _. reflexivity.
  - apply dbind_ok in Hr as (i & H & [= <-]).
    assert (G : exists ts b, d = DPlain ts /\ i = (ts_size ts, b, ts) /\ (if b then ts_char ts = TByteStr else ts_char ts = TRawData /\ ts_size ts <= n)).
    { apply arr_byte_vec_ok in H as (ts & -> & Hm & [ (Hc & ->) | (Hc & Hn & ->) ]); [ exists ts, true | exists ts, false ]; auto. }
    destruct G as (ts & b & -> & -> & Hb). cbn [fst snd].
    replace (size (DPlain ts)) with (N.min n (ts_size ts) + (ts_size ts - n)).
    2:{ cbn [size]. unfold scalar_size. destruct b; [ rewrite Hb | destruct Hb as (-> & _) ]; lia. }
    cbn [read_one].
    eapply reads_ext; [ | apply reads_bind; [ apply reads_exact | intros a; apply reads_map with (f := Some) ] ].
    + intros bs Hl _. cbn [omap decode].
      assert (Hl' : lenN bs = ts_size ts) by lia. rewrite (takeN_min _ _ _ Hl'). destruct b.
      * rewrite Hb, truncate_strip, strip_zeros. reflexivity.
      * destruct Hb as (-> & Hn). rewrite takeN_all by lia. reflexivity.
    + destruct (N.ltb_spec n (ts_size ts)); [ apply reads_vec; apply too_long; [ destruct b; tauto | lia ] | ]. replace (ts_size ts - n) with 0 by lia.
      intros bs rest Hl _. right. apply lenN_0 in Hl as ->. reflexivity.
  - apply dbind_ok in Hr as (p & H & [= <-]). apply unicode_ok in H as (ts & -> & Hm & Hc & ->). cbn [fst snd].
    cbn [wf_dtype] in Hw. pose proof (legal_irrelevant ts Hw) as Hi. rewrite Hc in Hi.
    replace (size (DPlain ts)) with (4 * N.of_nat (N.to_nat (ts_size ts))) by (cbn [size]; unfold scalar_size; rewrite Hc; lia).
    cbn [read_one].
    eapply reads_ext; [ | eapply reads_map; eapply reads_units with (g := fun u => u <? 0x110000); [ exact Hi | left; reflexivity ] ].
    intros bs _ _. cbn [decode]. unfold utf32_units. cbv zeta. destruct (forallb _ _); cbn [omap]; rewrite ?truncate_strip; reflexivity.
  - apply dbind_ok in Hr as (p & H & [= <-]). apply unicode_ok in H as (ts & -> & Hm & Hc & ->). cbn [fst snd].
    cbn [wf_dtype] in Hw. pose proof (legal_irrelevant ts Hw) as Hi. rewrite Hc in Hi.
    replace (size (DPlain ts)) with (4 * N.of_nat (N.to_nat (ts_size ts))) by (cbn [size]; unfold scalar_size; rewrite Hc; lia).
    cbn [read_one].
    eapply reads_ext; [ | eapply reads_map; eapply reads_units with (g := is_scalar); [ exact Hi | right; reflexivity ] ].
    intros bs _ _. cbn [decode]. unfold utf32_units. cbv zeta. destruct (forallb _ _); cbn [omap]; rewrite ?truncate_strip; reflexivity.
  - apply string_reader_ok in Hr as (ts & -> & Hm & [ (Hc & ->) | (Hc & ->) ]).
    + cbn [wf_dtype] in Hw. pose proof (legal_irrelevant ts Hw) as Hi. rewrite Hc in Hi.
      replace (size (DPlain ts)) with (4 * N.of_nat (N.to_nat (ts_size ts))) by (cbn [size]; unfold scalar_size; rewrite Hc; lia).
      cbn [read_one].
      eapply reads_ext; [ | eapply reads_map; eapply reads_units with (g := is_scalar); [ exact Hi | right; reflexivity ] ].
      intros bs _ _. cbn [decode]. rewrite Hc. unfold utf32_units. cbv zeta. destruct (forallb _ _); cbn [omap]; rewrite ?truncate_strip; reflexivity.
    + replace (size (DPlain ts)) with (ts_size ts) by (cbn [size]; unfold scalar_size; now rewrite Hc).
      cbn [read_one].
      eapply reads_ext; [ | eapply reads_check with (g := fun v => omap XStr (from_utf8 (strip v))); [ apply reads_vec; apply too_long; auto; lia | ] ].
      * intros bs _ _. cbn [decode]. now rewrite Hc.
      * intros a. rewrite truncate_strip. destruct (from_utf8 (strip a)); cbn [omap]; eauto.
  - apply dbind_ok in Hr as (p & H & [= <-]). apply unicode_arr_ok in H as (ts & -> & Hm & Hc & ->). cbn [fst snd].
    cbn [wf_dtype] in Hw. pose proof (legal_irrelevant ts Hw) as Hi. rewrite Hc in Hi.
    replace (size (DPlain ts)) with (4 * N.of_nat (N.to_nat (N.min (ts_size ts) n)) + 4 * N.of_nat (N.to_nat (ts_size ts - n))) by (cbn [size]; unfold scalar_size; rewrite Hc; lia).
    cbn [read_one].
    eapply reads_ext; [ | apply reads_bind; [ eapply reads_units with (g := fun u => u <? 0x110000); [ exact Hi | left; reflexivity ]
      | intros a; apply reads_map; eapply reads_units with (g := fun u => u <? 0x110000); [ exact Hi | left; reflexivity ] ] ].
    intros bs Hl Hb. cbn [decode]. unfold utf32_units. cbv zeta.
    replace (N.to_nat (ts_size ts)) with (N.to_nat (N.min (ts_size ts) n) + N.to_nat (ts_size ts - n))%nat by lia.
    rewrite pieces_app, map_app, forallb_app.
    rewrite (N.mul_comm 4), pieces_take.
    destruct (forallb _ (map _ (pieces (N.to_nat (N.min (ts_size ts) n)) 4 bs))); cbn [andb]; auto.
    destruct (forallb _ _); cbn [omap]; auto. rewrite truncate_strip. do 3 f_equal.
    rewrite takeN_app_gen, lenN_map. unfold lenN. rewrite pieces_length.
    destruct (N.le_gt_cases (ts_size ts) n) as [ Hle | Hgt ].
    + replace (N.to_nat (ts_size ts - n)) with 0%nat by lia. cbn [pieces map]. unfold takeN at 2. rewrite firstn_nil, app_nil_r.
      rewrite takeN_all; auto. rewrite lenN_map. unfold lenN. rewrite pieces_length. lia.
    + replace (n - N.of_nat (N.to_nat (N.min (ts_size ts) n))) with 0 by lia. rewrite takeN_0, app_nil_r.
      rewrite takeN_all; auto. rewrite lenN_map. unfold lenN. rewrite pieces_length. lia.
  - apply dbind_ok in Hr as (p & H & [= <-]). apply unicode_arr_ok in H as (ts & -> & Hm & Hc & ->). cbn [fst snd].
    cbn [wf_dtype] in Hw. pose proof (legal_irrelevant ts Hw) as Hi. rewrite Hc in Hi.
    replace (size (DPlain ts)) with (4 * N.of_nat (N.to_nat (N.min (ts_size ts) n)) + 4 * N.of_nat (N.to_nat (ts_size ts - n))) by (cbn [size]; unfold scalar_size; rewrite Hc; lia).
    cbn [read_one].
    eapply reads_ext; [ | apply reads_bind; [ eapply reads_units with (g := is_scalar); [ exact Hi | right; reflexivity ]
      | intros a; apply reads_map; eapply reads_units with (g := is_scalar); [ exact Hi | right; reflexivity ] ] ].
    intros bs Hl Hb. cbn [decode]. unfold utf32_units. cbv zeta.
    replace (N.to_nat (ts_size ts)) with (N.to_nat (N.min (ts_size ts) n) + N.to_nat (ts_size ts - n))%nat by lia.
    rewrite pieces_app, map_app, forallb_app.
    rewrite (N.mul_comm 4), pieces_take.
    destruct (forallb _ (map _ (pieces (N.to_nat (N.min (ts_size ts) n)) 4 bs))); cbn [andb]; auto.
    destruct (forallb _ _); cbn [omap]; auto. rewrite truncate_strip. do 3 f_equal.
    rewrite takeN_app_gen, lenN_map. unfold lenN. rewrite pieces_length.
    destruct (N.le_gt_cases (ts_size ts) n) as [ Hle | Hgt ].
    + replace (N.to_nat (ts_size ts - n)) with 0%nat by lia. cbn [pieces map]. unfold takeN at 2. rewrite firstn_nil, app_nil_r.
      rewrite takeN_all; auto. rewrite lenN_map. unfold lenN. rewrite pieces_length. lia.
    + replace (n - N.of_nat (N.to_nat (N.min (ts_size ts) n))) with 0 by lia. rewrite takeN_0, app_nil_r.
      rewrite takeN_all; auto. rewrite lenN_map. unfold lenN. rewrite pieces_length. lia.
  - apply array_string_reader_ok in Hr as (ts & -> & Hm & Hc & ->).
    replace (size (DPlain ts)) with (ts_size ts) by (cbn [size]; unfold scalar_size; now rewrite Hc).
    cbn [read_one].
    eapply reads_ext; [ | eapply reads_check with (g := fun v => omap (fun s => XStr (fit_chars n s)) (from_utf8 (strip v))); [ apply reads_vec; apply too_long; auto; lia | ] ].
    * intros bs _ _. reflexivity.
    * intros a. rewrite truncate_strip. destruct (from_utf8 (strip a)); cbn [omap]; [ now rewrite pop_until_fit | eauto ].
Qed.

Lemma reads_fields (P : Prop) c fs : Forall (fun f => forall d, wf_dtype d -> reads_item c (snd f) d) fs ->
  forall ds rs, (~ strings_fit_fields (c_usize_max c) ds -> P) -> map fst ds = map fst fs -> Forall (fun f => wf_dtype (snd f)) ds -> readers c fs (map snd ds) = DOk rs ->
  reads P (read_fields c rs) (size_fields ds) (decode_fields fs ds).
Proof.
  induction 1 as [ | (name, t) fs Hf Hfs IH ]; intros [ | (name', d) ds ] rs HP Hn Hw Hr; try discriminate Hn; cbn [map fst snd] in *.
  - injection Hr as <-. cbn. apply reads_ret.
  - injection Hn as -> Hn. apply Forall_cons_iff in Hw as (Hw & Hws). cbn [snd] in Hw.
    cbn [readers] in Hr. fold (readers c) in Hr. apply dbind_ok in Hr as (r & Hr & H). apply dbind_ok in H as (rs' & Hrs & H). injection H as <-.
    cbn [read_fields size_fields strings_fit_fields] in *. fold (read_fields c). fold size_fields in *.
    eapply reads_ext; [ | apply reads_bind; [ eapply reads_weaken; [ | exact (Hf d Hw r Hr) ]; tauto
      | intros a; apply reads_map; apply (IH ds rs'); auto; tauto ] ].
    intros bs _ _. cbn [decode_fields]. fold decode_fields. destruct (decode t d _); auto.
Qed.

Lemma reads_all c t : forall d, wf_dtype d -> reads_item c t d.
Proof.
  induction t as [ t Ha Hs | n t IH | fs IH ] using rty_rect'; intros d Hw.
  - now apply reads_scalar.
  - intros r Hr. cbn [reader] in Hr. apply dbind_ok in Hr as (ty & Hty & H). apply array_inner_ok in Hty as ->.
    apply dbind_ok in H as (r' & Hr & [= <-]). destruct Hw as (Hn & Hw).
    replace (size (DArray n ty)) with (N.of_nat (N.to_nat n) * size ty) in * by (cbn [size]; lia).
    cbn [read_one].
    eapply reads_ext; [ | apply reads_map; apply reads_replicate; exact (IH ty Hw r' Hr) ]. intros bs _ _. reflexivity.
  - intros r Hr. rewrite reader_struct in Hr. apply dbind_ok in Hr as (dts & Hd & H). apply extract_ok in Hd as (ds & -> & Hn & ->).
    apply dbind_ok in H as (rs & Hrs & [= <-]). rewrite size_record, read_one_struct, strings_fit_record.
    eapply reads_ext; [ | apply reads_map; eapply reads_fields; [ exact IH | auto | exact Hn | | exact Hrs ] ].
    + intros bs _ _. reflexivity.
    + rewrite wf_record in Hw. eapply Forall_impl; [ | exact Hw ]. cbv beta. tauto.
Qed.

(** Consequences: exactly [size d] bytes are consumed, whatever the input. *)
Lemma read_one_total c t d r : wf_dtype d -> reader c t d = DOk r -> forall input, bytes_ok input ->
  match run (read_one c r) input with
  | (Ok v, rest) => exists bs, input = bs ++ rest /\ lenN bs = size d /\ decode t d bs = Some v
  | (Err _, _) => True
  | (Panic, _) => ~ strings_fit (c_usize_max c) d
  end.
Proof.
  intros Hw Hr input Hi. pose proof (reads_all c t d Hw r Hr) as H.
  destruct (N.le_gt_cases (size d) (lenN input)) as [ Hl | Hl ].
  - specialize (H (takeN (size d) input) (dropN (size d) input)). rewrite takeN_dropN, lenN_takeN in H.
    specialize (H ltac:(lia) (Forall_takeN _ _ _ Hi)). destruct H as [ (HP & rest' & ->) | H ]; [ exact HP | ].
    destruct (decode t d (takeN (size d) input)) as [ v | ] eqn:E.
    + rewrite H. exists (takeN (size d) input). rewrite takeN_dropN, lenN_takeN. repeat split; auto. lia.
    + destruct H as (e & rest' & ->). exact I.
  - set (more := repeatN 0 (size d - lenN input)).
    specialize (H (input ++ more) []). rewrite app_nil_r in H.
    assert (Hm : bytes_ok (input ++ more)) by (apply Forall_app; split; auto; now apply Forall_repeatN).
    assert (Hlm : lenN (input ++ more) = size d) by (unfold more; rewrite lenN_app, lenN_repeatN; lia).
    specialize (H Hlm Hm). pose proof (run_prefix (read_one c r) input more) as P.
    destruct (run (read_one c r) input) as ([ v | e | ], rest); auto.
    + exfalso. rewrite P in H. destruct H as [ (_ & rest' & H) | H ]; [ discriminate | ]. destruct (decode t d (input ++ more)).
      * apply (f_equal snd) in H. cbn [snd] in H. apply app_eq_nil in H as (_ & H). apply (f_equal lenN) in H.
        unfold more in H. rewrite lenN_repeatN, lenN_nil in H. lia.
      * destruct H as (e & rest' & H). discriminate.
    + rewrite P in H. destruct H as [ (HP & _) | H ]; [ exact HP | ]. destruct (decode t d (input ++ more)); [ discriminate | ]. destruct H as (e & rest' & H). discriminate.
Qed.
