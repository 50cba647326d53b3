(** Members that are arrays: proofs. *)
From Verif Require Import M_Base M_Text M_TypeStr M_IO M_Header M_Serialize M_DTypeErr.
From Verif Require Import S_Text S_TypeStr S_DType S_Shape S_Header S_Elem S_Strings S_Fault S_Member.
From Verif Require Import P_Base P_Text P_TypeStr P_IO P_Shape P_Header P_Elem P_ElemT P_Sizes P_Codec P_Strings P_ReadOne P_WriteOne P_Fault P_Broken.
Open Scope N_scope.

Lemma upto_succ n : upto (N.succ n) = 0 :: map N.succ (upto n).
Proof.
  unfold upto. rewrite N2Nat.inj_succ. cbn [seq map]. f_equal. rewrite <- seq_shift, !map_map. apply map_ext. intros k. lia.
Qed.
Lemma nested_size shape d : size (nested_dtype shape d) = count shape * size d.
Proof. induction shape as [ | n s IH ]; cbn [nested_dtype fold_right count]; [ lia | ]. fold (nested_dtype s d). cbn [size]. rewrite IH. fold (count s). lia. Qed.
Lemma nested_ext shape : forall f g, (forall idx, in_bounds shape idx -> f idx = g idx) -> nested shape f = nested shape g.
Proof.
  induction shape as [ | n s IH ]; intros f g H; cbn [nested]; [ apply H; constructor | ]. f_equal. apply map_ext_in. intros i Hi. apply upto_in in Hi.
  apply IH. intros idx Hx. apply H. now constructor.
Qed.
Lemma row_offset_lt shape : forall idx, in_bounds shape idx -> row_offset shape idx < count shape.
Proof.
  induction shape as [ | n s IH ]; intros idx H; inversion H as [ | ? i ? is Hi His ]; subst; cbn [row_offset count fold_right]; [ lia | ]. fold (count s). apply IH in His. nia.
Qed.

Lemma all_some_iff {A B} (g : A -> option B) l vs : all_some (map g l) = Some vs <-> Forall2 (fun x v => g x = Some v) l vs.
Proof.
  revert vs. induction l as [ | x l IH ]; intros vs; cbn [map all_some].
  - split; [ intros [= <-]; constructor | intros H; inversion H; reflexivity ].
  - split.
    + destruct (g x) as [ y | ] eqn:E; [ | discriminate ]. destruct (all_some (map g l)) as [ ys | ] eqn:E'; [ | discriminate ]. intros [= <-]. constructor; [ auto | now apply IH ].
    + intros H. inversion H as [ | ? y ? ys Hy Hys ]; subst. rewrite Hy. apply IH in Hys. now rewrite Hys.
Qed.
Lemma pieces_upto k n : forall bs, pieces k n bs = map (fun i => takeN n (dropN (i * n) bs)) (upto (N.of_nat k)).
Proof.
  induction k as [ | k IH ]; intros bs; [ reflexivity | ]. rewrite Nat2N.inj_succ, upto_succ. cbn [pieces map]. rewrite N.mul_0_l. f_equal.
  rewrite IH, map_map. apply map_ext. intros i. rewrite dropN_dropN. do 2 f_equal. lia.
Qed.
Lemma takeN_app_le {A} n (a b : list A) : n <= lenN a -> takeN n (a ++ b) = takeN n a.
Proof. intros H. rewrite takeN_app_gen. replace (n - lenN a) with 0 by lia. now rewrite takeN_0, app_nil_r. Qed.
Lemma forall2_pick {A B} (R : A -> B -> Prop) l l' x : Forall2 R l l' -> In x l -> exists y, In y l' /\ R x y.
Proof. induction 1 as [ | a b l l' Hab H IH ]; [ easy | ]. intros [ -> | Hi ]; [ exists b; split; [ now left | auto ] | ]. destruct (IH Hi) as (y & Hy & Hr). exists y. split; [ now right | auto ]. Qed.
Lemma forall2_image {A B} (R : A -> B -> Prop) (h : A -> B) l : (forall x, In x l -> R x (h x)) -> Forall2 R l (map h l).
Proof. induction l as [ | x l IH ]; intros H; cbn [map]; constructor; [ apply H; now left | apply IH; intros; apply H; now right ]. Qed.
Lemma element_in shape n i is sz (bs : bytes) : in_bounds shape is -> i < n -> lenN bs = n * (count shape * sz) ->
  element_at (n :: shape) sz (i :: is) bs = element_at shape sz is (takeN (count shape * sz) (dropN (i * (count shape * sz)) bs)).
Proof.
  intros His Hi Hl. pose proof (row_offset_lt _ _ His) as Ho. unfold element_at. cbn [row_offset]. set (o := row_offset shape is) in *. set (c := count shape) in *.
  replace ((i * c + o) * sz) with (o * sz + i * (c * sz)) by lia. rewrite <- dropN_dropN. set (x := dropN (i * (c * sz)) bs).
  rewrite <- (takeN_dropN (c * sz) x) at 1. rewrite dropN_app_gen. assert (Hx : c * sz <= lenN x) by (unfold x; rewrite lenN_dropN; nia).
  replace (o * sz - lenN (takeN (c * sz) x)) with 0 by (rewrite lenN_takeN; nia). rewrite dropN_0. apply takeN_app_le. rewrite lenN_dropN, lenN_takeN. nia.
Qed.

(** * Decoding *)
Lemma decode_nested t d shape : forall bs v, lenN bs = count shape * size d ->
  decode (nested_type shape t) (nested_dtype shape d) bs = Some v <->
  exists f, v = nested shape f /\ forall idx, in_bounds shape idx -> decode t d (element_at shape (size d) idx bs) = Some (f idx).
Proof.
  induction shape as [ | n s IH ]; intros bs v Hl.
  - cbn [nested_type nested_dtype fold_right nested]. assert (E : element_at [] (size d) [] bs = bs).
    { unfold element_at. cbn [row_offset]. rewrite N.mul_0_l, dropN_0, takeN_all; [ reflexivity | ]. cbn [count fold_right] in Hl. lia. }
    split.
    + intros H. exists (fun _ => v). split; [ auto | ]. intros idx Hx. inversion Hx; subst. now rewrite E.
    + intros (f & -> & H). specialize (H [] (Forall2_nil _)). now rewrite E in H.
  - cbn [nested_type nested_dtype fold_right]. fold (nested_type s t) (nested_dtype s d). cbn [decode]. rewrite pieces_upto, N2Nat.id, nested_size, map_map.
    cbn [count fold_right] in Hl. fold (count s) in Hl. set (sz := count s * size d) in *. set (piece := fun i => takeN sz (dropN (i * sz) bs)).
    assert (Hp : forall i, i < n -> lenN (piece i) = sz) by (intros i Hi; unfold piece; rewrite lenN_takeN, lenN_dropN; nia).
    assert (He : forall i is, i < n -> in_bounds s is -> element_at (n :: s) (size d) (i :: is) bs = element_at s (size d) is (piece i)) by (intros; apply element_in; auto; lia).
    split.
    + intros H. destruct (all_some _) as [ vs | ] eqn:E; [ | discriminate H ]. cbn [omap] in H. apply Some_inj in H as <-. apply all_some_iff in E.
      exists (fun idx => match decode t d (element_at (n :: s) (size d) idx bs) with Some x => x | None => XBool false end).
      assert (G : forall i w, i < n -> decode (nested_type s t) (nested_dtype s d) (piece i) = Some w ->
        w = nested s (fun is => match decode t d (element_at (n :: s) (size d) (i :: is) bs) with Some x => x | None => XBool false end)
        /\ forall is, in_bounds s is -> exists x, decode t d (element_at (n :: s) (size d) (i :: is) bs) = Some x).
      { intros i w Hi Hw. apply IH in Hw as (f & -> & Hf); [ | now apply Hp ]. split.
        - apply nested_ext. intros is His. now rewrite He, Hf.
        - intros is His. exists (f is). now rewrite He, Hf. }
      split.
      * cbn [nested]. f_equal. assert (Hin : forall i, In i (upto n) -> i < n) by (intros; now apply upto_in).
        revert Hin E. generalize (upto n) as l. intros l Hin E. induction E as [ | i w l vs Hw E IHE ]; [ reflexivity | ]. cbn [map]. f_equal.
        -- apply G; [ apply Hin; now left | exact Hw ].
        -- apply IHE. intros j Hj. apply Hin. now right.
      * intros idx Hx. inversion Hx as [ | ? i ? is Hi His ]; subst. assert (Hin : In i (upto n)) by now apply upto_in.
        destruct (forall2_pick _ _ _ _ E Hin) as (w & _ & Hw). destruct (proj2 (G i w Hi Hw) is His) as (x & Hx'). now rewrite Hx'.
    + intros (f & -> & H). cbn [nested]. match goal with |- omap XSeq ?A = _ => replace A with (Some (map (fun i => nested s (fun idx => f (i :: idx))) (upto n))) end; [ reflexivity | ].
      symmetry. apply all_some_iff. apply forall2_image. intros i Hi. apply upto_in in Hi.
      change (decode (nested_type s t) (nested_dtype s d) (piece i) = Some (nested s (fun idx => f (i :: idx)))). apply IH; [ now apply Hp | ].
      exists (fun is => f (i :: is)). split; [ reflexivity | ]. intros is His. rewrite <- He by auto. apply H. now constructor.
Qed.

(** * Encoding *)
Lemma seq_exact t d sz out n : forall g, (forall i b, i < n -> encode t d (g i) = Some b -> lenN b = sz) ->
  encode_seq t d (map g (upto n)) = Some out <-> lenN out = n * sz /\ forall i, i < n -> encode t d (g i) = Some (takeN sz (dropN (i * sz) out)).
Proof.
  revert out. induction n as [ | n IH ] using N.peano_ind; intros out g Hg.
  - change (map g (upto 0)) with (@nil val). cbn [encode_seq]. split.
    + intros [= <-]. split; [ reflexivity | intros; lia ].
    + intros (Hl & _). rewrite N.mul_0_l in Hl. now apply lenN_0 in Hl as ->.
  - rewrite upto_succ. cbn [map]. rewrite map_map. cbn [encode_seq]. fold (encode_seq t d).
    assert (Hg' : forall i b, i < n -> encode t d (g (N.succ i)) = Some b -> lenN b = sz) by (intros i b Hi; apply Hg; lia).
    split.
    + destruct (encode t d (g 0)) as [ a | ] eqn:Ea; [ | discriminate ]. destruct (encode_seq _ _ _) as [ b | ] eqn:Eb; [ | discriminate ].
      intros H. apply Some_inj in H as <-. apply (IH b _ Hg') in Eb as (Hl & Hb). pose proof (Hg 0 a ltac:(lia) Ea) as Ha. split; [ rewrite lenN_app; lia | ].
      intros i Hi. destruct (N.eq_dec i 0) as [ -> | Hne ].
      * rewrite N.mul_0_l, dropN_0, takeN_app by auto. auto.
      * replace i with (N.succ (N.pred i)) at 1 by lia. rewrite Hb by lia. do 2 f_equal. replace (i * sz) with (N.pred i * sz + sz) by nia. rewrite <- dropN_dropN. now rewrite (dropN_app sz a b Ha).
    + intros (Hl & H). pose proof (H 0 ltac:(lia)) as H0. rewrite N.mul_0_l, dropN_0 in H0. rewrite H0.
      assert (E : encode_seq t d (map (fun i => g (N.succ i)) (upto n)) = Some (dropN sz out)).
      { apply (IH _ _ Hg'). split; [ rewrite lenN_dropN; nia | ]. intros i Hi. rewrite dropN_dropN. replace (i * sz + sz) with (N.succ i * sz) by lia. apply H. lia. }
      rewrite E. now rewrite takeN_dropN.
Qed.
Lemma encode_nested t d shape : forall f out, (forall idx b, in_bounds shape idx -> encode t d (f idx) = Some b -> lenN b = size d) ->
  encode (nested_type shape t) (nested_dtype shape d) (nested shape f) = Some out <->
  lenN out = count shape * size d /\ forall idx, in_bounds shape idx -> encode t d (f idx) = Some (element_at shape (size d) idx out).
Proof.
  induction shape as [ | n s IH ]; intros f out Hf.
  - cbn [nested_type nested_dtype fold_right nested count]. assert (E : lenN out = size d -> element_at [] (size d) [] out = out).
    { intros Hl. unfold element_at. cbn [row_offset]. rewrite N.mul_0_l, dropN_0, takeN_all; [ reflexivity | lia ]. }
    split.
    + intros H. pose proof (Hf [] out (Forall2_nil _) H) as Hl. split; [ lia | ]. intros idx Hx. inversion Hx; subst. now rewrite E.
    + intros (Hl & H). specialize (H [] (Forall2_nil _)). rewrite E in H by lia. exact H.
  - cbn [nested_type nested_dtype fold_right nested count]. fold (nested_type s t) (nested_dtype s d) (count s). rewrite encode_array.
    assert (IH' : forall i o, i < n -> encode (nested_type s t) (nested_dtype s d) (nested s (fun idx => f (i :: idx))) = Some o <->
      lenN o = count s * size d /\ forall idx, in_bounds s idx -> encode t d (f (i :: idx)) = Some (element_at s (size d) idx o)).
    { intros i o Hi. apply (IH (fun idx => f (i :: idx))). intros idx b Hx. apply Hf. now constructor. }
    rewrite (seq_exact _ _ (count s * size d)).
    2:{ intros i b Hi Hb. now apply IH' in Hb. }
    set (sz := count s * size d) in *. split.
    + intros (Hl & H). split; [ lia | ]. intros idx Hx. inversion Hx as [ | ? i ? is Hi His ]; subst. rewrite element_in by (auto; lia). apply (IH' i _ Hi); auto.
    + intros (Hl & H). split; [ lia | ]. intros i Hi. apply (IH' i _ Hi). split; [ rewrite lenN_takeN, lenN_dropN; fold sz; nia | ].
      intros is His. unfold sz. rewrite <- (element_in s n i is) by (auto; lia). apply H. now constructor.
Qed.

(** * Values and dtypes *)
Lemma has_type_nested t shape : forall v, has_type (nested_type shape t) v <-> exists f, v = nested shape f /\ forall idx, in_bounds shape idx -> has_type t (f idx).
Proof.
  induction shape as [ | n s IH ]; intros v.
  - cbn [nested_type fold_right nested]. split.
    + intros H. exists (fun _ => v). auto.
    + intros (f & -> & H). apply H. constructor.
  - cbn [nested_type fold_right nested]. fold (nested_type s t). split.
    + intros H. destruct v as [ | | | | | | | l | ]; try (now destruct H). destruct H as (Hn & Hl).
      assert (Hg : Forall (fun x => exists f, x = nested s f /\ forall idx, in_bounds s idx -> has_type t (f idx)) l).
      { eapply Forall_impl; [ | exact Hl ]. intros x Hx. now apply IH. }
      assert (G : exists fs, List.length fs = List.length l /\ forall i, (i < List.length l)%nat -> nth i l (XBool false) = nested s (nth i fs (fun _ => XBool false)) /\ forall idx, in_bounds s idx -> has_type t (nth i fs (fun _ => XBool false) idx)).
      { clear Hn Hl. induction Hg as [ | x l (f & Hx & Hf) Hg IHg ]; [ exists []; split; [ auto | cbn; lia ] | ]. destruct IHg as (fs & Hfl & Hfs).
        exists (f :: fs). split; [ cbn; lia | ]. intros [ | i ] Hi; cbn [nth]; [ auto | ]. apply Hfs. cbn in Hi. lia. }
      destruct G as (fs & Hfl & Hfs). exists (fun idx => match idx with i :: is => nth (N.to_nat i) fs (fun _ => XBool false) is | [] => XBool false end). split.
      * f_equal. apply (nth_ext _ _ (XBool false) (XBool false)).
        { rewrite map_length. pose proof (upto_length n) as Hu. unfold lenN in Hu, Hn. lia. }
        intros i Hi. destruct (Hfs i Hi) as (-> & _). symmetry. apply nth_error_nth.
        assert (E : nth_error (upto n) i = Some (N.of_nat i)) by (rewrite <- (Nat2N.id i) at 1; apply upto_nth; unfold lenN in Hn; lia).
        rewrite (map_nth_error _ _ _ E). now rewrite Nat2N.id.
      * intros idx Hx. inversion Hx as [ | ? i ? is Hi His ]; subst. apply Hfs; [ | auto ]. unfold lenN in Hi. lia.
    + intros (f & -> & H). split; [ unfold lenN; rewrite map_length; apply upto_length | ]. apply Forall_forall. intros x Hx. apply in_map_iff in Hx as (i & <- & Hi). apply upto_in in Hi.
      apply IH. exists (fun idx => f (i :: idx)). split; [ auto | ]. intros idx Hx. apply H. now constructor.
Qed.

Lemma accepts_nested m dir t d shape shape' : (forall n t', t <> RArray n t') -> (forall n d', d <> DArray n d') ->
  accepts m dir (nested_type shape t) (nested_dtype shape' d) <-> shape = shape' /\ accepts m dir t d.
Proof.
  intros Ht Hd. revert shape'. induction shape as [ | n s IH ]; intros [ | n' s' ]; cbn [nested_type nested_dtype fold_right].
  - tauto.
  - fold (nested_dtype s' d). split; [ | now intros (? & _) ]. intros H. destruct t; try now destruct H. exfalso. eapply Ht; reflexivity.
  - fold (nested_type s t). split; [ | now intros (? & _) ]. intros H. destruct d; try now destruct H. exfalso. eapply Hd; reflexivity.
  - fold (nested_type s t) (nested_dtype s' d). cbn [accepts]. rewrite IH. split; [ intros (-> & -> & H); auto | intros ([= -> ->] & H); auto ].
Qed.
Lemma nested_fit m shape d : strings_fit m (nested_dtype shape d) <-> strings_fit m d.
Proof. induction shape as [ | n s IH ]; [ reflexivity | exact IH ]. Qed.
Lemma nested_wf shape d : wf_dtype (nested_dtype shape d) -> wf_dtype d.
Proof. induction shape as [ | n s IH ]; [ auto | ]. intros (_ & H). auto. Qed.
Lemma accepts_element m dir t d shape : accepts m dir (nested_type shape t) (nested_dtype shape d) -> accepts m dir t d.
Proof. induction shape as [ | n s IH ]; [ auto | ]. intros (_ & H). auto. Qed.

Lemma item_exact c t d r b rest v : wf_dtype d -> strings_fit (c_usize_max c) d -> reader c t d = DOk r -> bytes_ok b -> lenN b = size d ->
  run (read_one c r) (b ++ rest) = (Ok v, rest) <-> decode t d b = Some v.
Proof.
  intros Hw Hs Hr Hb Hl. split; [ | now apply item_value ]. intros H. pose proof (reads_all c t d Hw r Hr b rest Hl Hb) as [ (Hp & _) | H' ]; [ contradiction | ].
  destruct (decode t d b) as [ v' | ]; [ now rewrite H in H'; injection H' as -> | ]. destruct H' as (e & k & H'). rewrite H in H'. discriminate H'.
Qed.

Lemma reads_nested c t d shape r rd bs rest v : wf_dtype (nested_dtype shape d) -> strings_fit (c_usize_max c) d ->
  reader c (nested_type shape t) (nested_dtype shape d) = DOk r -> reader c t d = DOk rd -> bytes_ok bs -> lenN bs = count shape * size d ->
  run (read_one c r) (bs ++ rest) = (Ok v, rest) <->
  exists f, v = nested shape f /\ forall idx, in_bounds shape idx -> run (read_one c rd) (element_at shape (size d) idx bs) = (Ok (f idx), []).
Proof.
  intros Hw Hs Hr Hrd Hb Hl. rewrite (item_exact c (nested_type shape t) (nested_dtype shape d)); auto; [ | now apply nested_fit | now rewrite nested_size ].
  rewrite decode_nested by auto. apply nested_wf in Hw.
  assert (G : forall idx x, in_bounds shape idx -> run (read_one c rd) (element_at shape (size d) idx bs) = (Ok x, []) <-> decode t d (element_at shape (size d) idx bs) = Some x).
  { intros idx x Hx. rewrite <- (app_nil_r (element_at shape (size d) idx bs)) at 1. apply item_exact; auto.
    - unfold element_at. apply Forall_takeN. now apply Forall_dropN.
    - unfold element_at. rewrite lenN_takeN, lenN_dropN. pose proof (row_offset_lt _ _ Hx). nia. }
  split; intros (f & Hv & Hf); exists f; (split; [ auto | intros idx Hx; apply G; auto ]).
Qed.
Lemma writes_nested c t d shape w wd f out : wf_dtype (nested_dtype shape d) -> strings_fit (c_usize_max c) d ->
  writer c (nested_type shape t) (nested_dtype shape d) = DOk w -> writer c t d = DOk wd -> (forall idx, in_bounds shape idx -> has_type t (f idx)) ->
  write_one c w (nested shape f) = (out, Ok tt) <->
  lenN out = count shape * size d /\ forall idx, in_bounds shape idx -> write_one c wd (f idx) = (element_at shape (size d) idx out, Ok tt).
Proof.
  intros Hw Hs Hr Hrd Hf. rewrite (write_exact c (nested_type shape t) (nested_dtype shape d)); auto; [ | now apply nested_fit | ].
  2:{ apply has_type_nested. eauto. }
  assert (Ha : accepts (c_usize_max c) Writing t d) by (apply writer_accepts; eauto).
  rewrite encode_nested. 2:{ intros idx b Hx E. exact (proj1 (encode_len t _ d (f idx) b Ha (Hf idx Hx) E)). }
  apply nested_wf in Hw. split; intros (Hl & H); (split; [ auto | ]); intros idx Hx; apply (write_exact c t d wd (f idx) _ Hw Hs Hrd (Hf idx Hx)); auto.
Qed.
Lemma nested_accepted c t d shape shape' : (forall n t', t <> RArray n t') -> (forall n d', d <> DArray n d') ->
  ((exists r, reader c (nested_type shape t) (nested_dtype shape' d) = DOk r) <-> shape = shape' /\ exists r, reader c t d = DOk r)
  /\ ((exists w, writer c (nested_type shape t) (nested_dtype shape' d) = DOk w) <-> shape = shape' /\ exists w, writer c t d = DOk w).
Proof. intros Ht Hd. rewrite !reader_accepts, !writer_accepts. split; now apply accepts_nested. Qed.

(** * Members of records *)
Lemma decode_members m fs : forall ds bs vs, accepts_fields m Reading fs ds -> lenN bs = size_fields ds ->
  decode_fields fs ds bs = Some vs <->
  lenN vs = lenN fs /\ forall k name t name' d x, nth_error fs k = Some (name, t) -> nth_error ds k = Some (name', d) -> nth_error vs k = Some x ->
    decode t d (takeN (size d) (dropN (size_fields (firstn k ds)) bs)) = Some x.
Proof.
  induction fs as [ | (name & t) fs IH ]; intros [ | (name' & d) ds ] bs vs Ha Hl; try now destruct Ha.
  - cbn [decode_fields]. split; [ intros [= <-]; split; [ reflexivity | intros [ | k ]; discriminate ] | ]. intros (H & _). rewrite lenN_nil in H. now apply lenN_0 in H as ->.
  - cbn [decode_fields]. fold decode_fields. destruct Ha as (_ & _ & Ha). cbn [size_fields] in Hl. fold size_fields in Hl.
    assert (Hl' : lenN (dropN (size d) bs) = size_fields ds) by (rewrite lenN_dropN; lia). split.
    + destruct (decode t d _) as [ x | ] eqn:Ex; [ | discriminate ]. destruct (decode_fields _ _ _) as [ xs | ] eqn:Exs; [ | discriminate ].
      intros H. apply Some_inj in H as <-. apply (IH _ _ _ Ha Hl') in Exs as (Hn & H). split; [ rewrite !lenN_cons; lia | ].
      intros [ | k ] n t' n' d' y; cbn [nth_error firstn].
      * intros E1 E2 E3. apply Some_inj in E1, E2, E3. apply pair_inj in E1 as (<- & <-). apply pair_inj in E2 as (<- & <-). subst y. exact Ex.
      * intros E1 E2 E3. cbn [size_fields]. fold size_fields. rewrite N.add_comm, <- dropN_dropN. eapply H; eauto.
    + intros (Hn & H). destruct vs as [ | x vs ]; [ rewrite lenN_cons, lenN_nil in Hn; lia | ]. rewrite !lenN_cons in Hn.
      rewrite <- (dropN_0 bs) at 1. pose proof (H O name t name' d x eq_refl eq_refl eq_refl) as H0. cbn [firstn size_fields] in H0. rewrite H0.
      assert (E : decode_fields fs ds (dropN (size d) bs) = Some vs).
      { apply (IH _ _ _ Ha Hl'). split; [ lia | ]. intros k n t' n' d' y E1 E2 E3. rewrite dropN_dropN, N.add_comm. exact (H (S k) n t' n' d' y E1 E2 E3). }
      now rewrite E.
Qed.
Lemma encode_members m fs : forall ds vs out, accepts_fields m Writing fs ds -> has_types fs vs ->
  encode_fields fs ds vs = Some out <->
  lenN out = size_fields ds /\ forall k name t name' d x, nth_error fs k = Some (name, t) -> nth_error ds k = Some (name', d) -> nth_error vs k = Some x ->
    encode t d x = Some (takeN (size d) (dropN (size_fields (firstn k ds)) out)).
Proof.
  induction fs as [ | (name & t) fs IH ]; intros [ | (name' & d) ds ] [ | x vs ] out Ha Hv; try now destruct Ha. all: try now destruct Hv.
  - cbn [encode_fields size_fields]. split; [ intros [= <-]; split; [ reflexivity | intros [ | k ]; discriminate ] | ]. intros (H & _). now apply lenN_0 in H as ->.
  - cbn [encode_fields size_fields]. fold encode_fields size_fields. destruct Ha as (_ & Hat & Ha). destruct Hv as (Hx & Hv). split.
    + destruct (encode t d x) as [ a | ] eqn:Ex; [ | discriminate ]. destruct (encode_fields _ _ _) as [ b | ] eqn:Eb; [ | discriminate ].
      intros H. apply Some_inj in H as <-. apply (IH _ _ _ Ha Hv) in Eb as (Hn & H). pose proof (proj1 (encode_len t _ d x a Hat Hx Ex)) as Hla. split; [ rewrite lenN_app; lia | ].
      intros [ | k ] n t' n' d' y; cbn [nth_error firstn].
      * intros E1 E2 E3. apply Some_inj in E1, E2, E3. apply pair_inj in E1 as (<- & <-). apply pair_inj in E2 as (<- & <-). subst y. cbn [size_fields]. rewrite dropN_0, takeN_app by auto. exact Ex.
      * intros E1 E2 E3. cbn [size_fields]. fold size_fields. rewrite N.add_comm, <- dropN_dropN, (dropN_app (size d) a b Hla). eapply H; eauto.
    + intros (Hn & H). pose proof (H O name t name' d x eq_refl eq_refl eq_refl) as H0. cbn [firstn size_fields] in H0. rewrite dropN_0 in H0. rewrite H0.
      assert (E : encode_fields fs ds vs = Some (dropN (size d) out)).
      { apply (IH _ _ _ Ha Hv). split; [ rewrite lenN_dropN; lia | ]. intros k n t' n' d' y E1 E2 E3. rewrite dropN_dropN, N.add_comm. exact (H (S k) n t' n' d' y E1 E2 E3). }
      rewrite E. now rewrite takeN_dropN.
Qed.
Lemma wf_member ds k name d : wf_dtype (DRecord ds) -> nth_error ds k = Some (name, d) -> wf_dtype d.
Proof. intros H E. apply wf_record in H. apply nth_error_In in E. rewrite Forall_forall in H. exact (proj2 (H _ E)). Qed.
Lemma fit_member m ds : forall k name d, strings_fit m (DRecord ds) -> nth_error ds k = Some (name, d) -> strings_fit m d.
Proof.
  induction ds as [ | (n & d') ds IH ]; intros [ | k ] name d H E; try discriminate E; destruct H as (H & H').
  - cbn [nth_error] in E. apply Some_inj in E. apply pair_inj in E as (_ & <-). exact H.
  - exact (IH k name d H' E).
Qed.
Lemma accepts_member m dir fs : forall ds k name t name' d, accepts_fields m dir fs ds -> nth_error fs k = Some (name, t) -> nth_error ds k = Some (name', d) -> accepts m dir t d.
Proof.
  induction fs as [ | (n & t') fs IH ]; intros [ | (n' & d') ds ] [ | k ] name t name' d Ha E1 E2; try discriminate; destruct Ha as (_ & Ha & Ha').
  - cbn [nth_error] in E1, E2. apply Some_inj in E1, E2. apply pair_inj in E1 as (_ & <-). apply pair_inj in E2 as (_ & <-). exact Ha.
  - exact (IH ds k name t name' d Ha' E1 E2).
Qed.
Lemma size_prefix ds : forall k name d, nth_error ds k = Some (name, d) -> size_fields (firstn k ds) + size d <= size_fields ds.
Proof.
  induction ds as [ | (n & d') ds IH ]; intros [ | k ] name d E; try discriminate E; cbn [firstn size_fields]; fold size_fields.
  - cbn [nth_error] in E. apply Some_inj in E. apply pair_inj in E as (_ & <-). lia.
  - specialize (IH k name d E). lia.
Qed.
Lemma types_member fs : forall vs k name t x, has_types fs vs -> nth_error fs k = Some (name, t) -> nth_error vs k = Some x -> has_type t x.
Proof.
  induction fs as [ | (n & t') fs IH ]; intros [ | v vs ] [ | k ] name t x Ha E1 E2; try discriminate; destruct Ha as (Ha & Ha').
  - cbn [nth_error] in E1, E2. apply Some_inj in E1, E2. apply pair_inj in E1 as (_ & <-). subst x. exact Ha.
  - exact (IH vs k name t x Ha' E1 E2).
Qed.

Lemma reads_member c fs ds r bs rest v : wf_dtype (DRecord ds) -> strings_fit (c_usize_max c) (DRecord ds) ->
  reader c (RStruct fs) (DRecord ds) = DOk r -> bytes_ok bs -> lenN bs = size (DRecord ds) ->
  run (read_one c r) (bs ++ rest) = (Ok v, rest) <->
  exists vs, v = XRec vs /\ lenN vs = lenN fs /\ forall k name t name' d rd x, nth_error fs k = Some (name, t) -> nth_error ds k = Some (name', d) -> nth_error vs k = Some x ->
    reader c t d = DOk rd -> run (read_one c rd) (takeN (size d) (dropN (size (DRecord (firstn k ds))) bs)) = (Ok x, []).
Proof.
  intros Hw Hs Hr Hb Hl. rewrite (item_exact c (RStruct fs) (DRecord ds)) by auto. rewrite decode_struct.
  assert (Ha : accepts_fields (c_usize_max c) Reading fs ds) by (rewrite <- accepts_struct; apply reader_accepts; eauto).
  assert (G : forall k name d t rd x, nth_error ds k = Some (name, d) -> reader c t d = DOk rd ->
    run (read_one c rd) (takeN (size d) (dropN (size (DRecord (firstn k ds))) bs)) = (Ok x, []) <-> decode t d (takeN (size d) (dropN (size_fields (firstn k ds)) bs)) = Some x).
  { intros k name d t rd x E Hrd. rewrite size_record, <- (app_nil_r (takeN _ _)). rewrite app_nil_r at 2. apply item_exact; auto.
    - eapply wf_member; eauto.
    - eapply fit_member; eauto.
    - apply Forall_takeN. now apply Forall_dropN.
    - rewrite lenN_takeN, lenN_dropN. pose proof (size_prefix _ _ _ _ E). rewrite size_record in Hl. lia. }
  split.
  - intros H. destruct (decode_fields fs ds bs) as [ vs | ] eqn:E; [ | discriminate H ]. cbn [omap] in H. apply Some_inj in H as <-. exists vs. split; [ reflexivity | ].
    apply (decode_members _ _ _ _ _ Ha Hl) in E as (Hn & H). split; [ auto | ]. intros k name t name' d rd x E1 E2 E3 Hrd. rewrite (G k name' d t rd x E2 Hrd). eapply H; eauto.
  - intros (vs & -> & Hn & H). enough (E : decode_fields fs ds bs = Some vs) by now rewrite E. apply (decode_members _ _ _ _ _ Ha Hl). split; [ auto | ].
    intros k name t name' d x E1 E2 E3. pose proof (accepts_member _ _ _ _ _ _ _ _ _ Ha E1 E2) as Hx. apply reader_accepts in Hx as (rd & Hrd).
    exact (proj1 (G k name' d t rd x E2 Hrd) (H k name t name' d rd x E1 E2 E3 Hrd)).
Qed.
Lemma writes_member c fs ds w vs out : wf_dtype (DRecord ds) -> strings_fit (c_usize_max c) (DRecord ds) ->
  writer c (RStruct fs) (DRecord ds) = DOk w -> has_type (RStruct fs) (XRec vs) ->
  write_one c w (XRec vs) = (out, Ok tt) <->
  lenN out = size (DRecord ds) /\ forall k name t name' d wd x, nth_error fs k = Some (name, t) -> nth_error ds k = Some (name', d) -> nth_error vs k = Some x ->
    writer c t d = DOk wd -> write_one c wd x = (takeN (size d) (dropN (size (DRecord (firstn k ds))) out), Ok tt).
Proof.
  intros Hw Hs Hr Hv. rewrite (write_exact c (RStruct fs) (DRecord ds)) by auto. rewrite encode_struct.
  assert (Ha : accepts_fields (c_usize_max c) Writing fs ds) by (rewrite <- accepts_struct; apply writer_accepts; eauto).
  rewrite has_type_struct in Hv. rewrite (encode_members _ _ _ _ _ Ha Hv), size_record. split; intros (Hl & H); (split; [ auto | ]).
  - intros k name t name' d wd x E1 E2 E3 Hwd. rewrite size_record. apply (write_exact c t d wd x); eauto using wf_member, fit_member, types_member.
  - intros k name t name' d x E1 E2 E3. pose proof (accepts_member _ _ _ _ _ _ _ _ _ Ha E1 E2) as Hx. apply writer_accepts in Hx as (wd & Hwd).
    rewrite <- size_record. apply (write_exact c t d wd x); eauto using wf_member, fit_member, types_member.
Qed.
