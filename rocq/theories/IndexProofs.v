(** Range queries, same-word lists and view classes. *)
From Verif Require Import Base BaseProofs SortModel SortProofs IndexModel IndexSpec.
From Coq Require Import Permutation Sorted.

Lemma index_lt_strict_weak data l : strict_weak (index_lt data) l.
Proof. unfold index_lt. split; [|split]; intros; lia. Qed.

Lemma firstn_skipn_In {A} (l : list A) a n v :
  In v (firstn n (skipn a l)) <-> exists k, (a <= k < a + n)%nat /\ nth_error l k = Some v.
Proof.
  split.
  - intros H. apply In_nth_error in H as (k & Hk).
    assert (L : (k < List.length (firstn n (skipn a l)))%nat) by (apply nth_error_Some; congruence).
    rewrite firstn_length, skipn_length in L.
    exists (a + k)%nat. split; [lia|]. rewrite <- Hk.
    rewrite <- (firstn_skipn n (skipn a l)) in Hk.
    transitivity (nth_error (skipn a l) k).
    + clear. revert l. induction a as [|a IH]; intros l; [reflexivity|]. destruct l; [destruct k; reflexivity|apply IH].
    + rewrite <- (firstn_skipn n (skipn a l)) at 1. rewrite nth_error_app1; [reflexivity|].
      rewrite firstn_length, skipn_length; lia.
  - intros (k & Hk & E).
    assert (E' : nth_error (skipn a l) (k - a) = Some v).
    { rewrite <- E. replace k with (a + (k - a))%nat at 2 by lia.
      generalize (k - a)%nat. clear. intros m. revert l. induction a as [|a IH]; intros l; [reflexivity|].
      destruct l; [destruct m; reflexivity|apply IH]. }
    assert (L : (k - a < List.length (skipn a l))%nat) by (apply nth_error_Some; congruence).
    apply nth_error_In with (n := (k - a)%nat).
    rewrite <- E'. rewrite <- (firstn_skipn n (skipn a l)) at 2.
    rewrite nth_error_app1; [reflexivity|rewrite firstn_length; lia].
Qed.

Lemma NoDup_skipn {A} (l : list A) n : NoDup l -> NoDup (skipn n l).
Proof. revert n; induction l as [|a l IH]; intros [|n] H; auto. cbn. apply IH. now inversion H. Qed.
Lemma firstn_incl {A} (l : list A) n : incl (firstn n l) l.
Proof. intros x Hx. rewrite <- (firstn_skipn n l). apply in_or_app; now left. Qed.
Lemma NoDup_firstn {A} (l : list A) n : NoDup l -> NoDup (firstn n l).
Proof.
  revert n; induction l as [|a l IH]; intros [|n] H; cbn; auto; try constructor.
  - inversion H; subst. intros C. apply firstn_incl in C. contradiction.
  - apply IH. now inversion H.
Qed.

Section Range.
Context (sort : list Z -> list Z) (data : list Z).
Hypothesis Hsort : is_std_sort (index_lt data) sort.
Let n := Z.of_nat (List.length data).
Let idx := indexes_ordered sort data.

Lemma idx_perm : Permutation (zrange n) idx.
Proof. apply Hsort. apply index_lt_strict_weak. Qed.
Lemma idx_length : Z.of_nat (List.length idx) = n.
Proof. rewrite <- (Permutation_length idx_perm), zrange_length. lia. Qed.
Lemma idx_In i : In i idx <-> 0 <= i < n.
Proof.
  rewrite <- zrange_In. split; intros H.
  - apply (Permutation_in i (Permutation_sym idx_perm) H).
  - apply (Permutation_in i idx_perm H).
Qed.
Lemma idx_NoDup : NoDup idx.
Proof. apply (Permutation_NoDup idx_perm), zrange_NoDup. Qed.

Let at_ (k : Z) := cell_at data (nth (Z.to_nat k) idx 0).

Lemma idx_read {B} k (f : Z -> B) : 0 <= k < n -> (i <- rd idx k ;; v <- rd data i ;; Ok (f v)) = Ok (f (at_ k)).
Proof.
  intros Hk. rewrite (rd_nth 0) by (rewrite idx_length; lia). cbn [bind].
  assert (Hi : In (nth (Z.to_nat k) idx 0) idx) by (apply nth_In; pose proof idx_length; lia).
  apply idx_In in Hi. rewrite (rd_nth 0) by (fold n; lia). reflexivity.
Qed.

Lemma at_mono i j : 0 <= i -> i <= j -> j < n -> at_ i <= at_ j.
Proof.
  intros Hi Hij Hj. destruct (Z.eq_dec i j) as [->|Nij]; [lia|].
  assert (S : sorted_by (index_lt data) idx) by (apply Hsort, index_lt_strict_weak).
  pose proof idx_length as L.
  pose proof (sorted_by_nth _ _ (Z.to_nat i) (Z.to_nat j) (nth (Z.to_nat i) idx 0) (nth (Z.to_nat j) idx 0) S) as H.
  unfold index_lt in H. specialize (H ltac:(lia) ltac:(apply nth_error_nth'; lia) ltac:(apply nth_error_nth'; lia)).
  unfold at_. lia.
Qed.

Lemma range_bounds_ok start stop :
  exists a b, range_bounds data idx start stop = Ok (a, b) /\ 0 <= a <= b /\ b <= n /\
    (forall k, 0 <= k < n -> (a <= k < b <-> start <= at_ k /\ (at_ k <= stop))) \/
  stop < start.
Proof.
  destruct (Z.lt_ge_cases stop start) as [|Hs]; [exists 0, 0; now right|].
  assert (N0 : 0 <= n) by (unfold n; lia).
  unfold range_bounds. fold n.
  destruct (partition_point_ok (fun k => i <- rd idx k ;; v <- rd data i ;; Ok (v <? start))
              (fun k => at_ k <? start) 0 n) as (a & Ea & Ha & A1 & A2).
  - exact N0.
  - intros i Hi. apply (idx_read i (fun v => v <? start)); lia.
  - intros i j Hi Hij Hj Hq. pose proof (at_mono i j Hi Hij Hj). lia.
  - rewrite Ea. cbn [bind].
    destruct (partition_point_ok (fun k => i <- rd idx k ;; v <- rd data i ;; Ok (negb (stop <? v)))
              (fun k => negb (stop <? at_ k)) a n) as (b & Eb & Hb & B1 & B2).
    + lia.
    + intros i Hi. apply (idx_read i (fun v => negb (stop <? v))); lia.
    + intros i j Hi Hij Hj Hq. pose proof (at_mono i j ltac:(lia) Hij Hj). lia.
    + rewrite Eb. cbn [bind]. exists a, b. left. split; [reflexivity|]. split; [lia|]. split; [lia|].
      intros k Hk. split; intros H.
      * specialize (B1 k H). specialize (A2 k ltac:(lia)). lia.
      * destruct (Z.lt_ge_cases k a) as [C|C].
        { specialize (A1 k ltac:(lia)). lia. }
        split; [exact C|]. destruct (Z.lt_ge_cases k b) as [D|D]; [exact D|].
        specialize (B2 k ltac:(lia)). lia.
Qed.

Lemma get_range_exact x d :
  (forall v, In v data -> 0 <= v) -> 0 <= x -> 0 <= d -> x + d < 4294967296 ->
  exists l, get_range data idx x d = Ok l /\ NoDup l /\ forall i, In i l <-> within data x d i.
Proof.
  intros Hd Hx H0 Hov. unfold get_range.
  rewrite u32_small by lia.
  destruct (range_bounds_ok (if d <? x then x - d else 0) (x + d)) as (a & b & [(E & Ha & Hb & K)|C]).
  2:{ exfalso. destruct (Z.ltb_spec d x); lia. }
  rewrite E. cbn [bind]. eexists. split; [reflexivity|]. split; [apply NoDup_firstn, NoDup_skipn, idx_NoDup|].
  intros i. rewrite firstn_skipn_In. unfold within. fold n. pose proof idx_length as L. split.
  - intros (k & Hk & Ei).
    assert (Hi : 0 <= i < n) by (apply idx_In; eapply nth_error_In; exact Ei).
    split; [exact Hi|].
    destruct (K (Z.of_nat k) ltac:(lia)) as [K1 _]. specialize (K1 ltac:(lia)).
    unfold at_ in K1. rewrite Nat2Z.id, (nth_error_nth _ _ 0 Ei) in K1. unfold cell_at in K1.
    destruct (Z.ltb_spec d x); [lia|].
    assert (0 <= nth (Z.to_nat i) data 0) by (apply Hd, nth_In; unfold n in *; lia). lia.
  - intros (Hi & Hv). apply idx_In in Hi as Hin. apply In_nth_error in Hin as (k & Ek). exists k. split; [|exact Ek].
    assert (Lk : (k < List.length idx)%nat) by (apply nth_error_Some; congruence).
    destruct (K (Z.of_nat k) ltac:(lia)) as [_ K2].
    unfold at_ in K2. rewrite Nat2Z.id, (nth_error_nth _ _ 0 Ek) in K2. unfold cell_at in K2.
    assert (0 <= nth (Z.to_nat i) data 0) by (apply Hd, nth_In; unfold n in *; lia).
    specialize (K2 ltac:(destruct (Z.ltb_spec d x); lia)). lia.
Qed.
End Range.

(** Same-word lists. *)
Lemma nth_upd_same {A} (l : list A) n v d : (n < List.length l)%nat -> nth n (upd l n v) d = v.
Proof. intros H. apply nth_error_nth, upd_nth_same, H. Qed.
Lemma nth_upd_other {A} (l : list A) n m v d : n <> m -> nth m (upd l n v) d = nth m l d.
Proof.
  intros H. destruct (nth_error l m) eqn:E.
  - rewrite (nth_error_nth _ _ d E). apply nth_error_nth. now rewrite upd_nth_other.
  - rewrite !nth_overflow; [reflexivity| |]; [|rewrite upd_length]; now apply nth_error_None.
Qed.

Definition keys_of (m : list (Z * list Z)) := map fst m.

Lemma map_push_keys k n m x : In x (keys_of (map_push k n m)) <-> x = k \/ In x (keys_of m).
Proof.
  induction m as [|[k' l] m IH]; cbn.
  - intuition.
  - destruct (Z.ltb_spec k k'); [cbn; intuition|]. destruct (Z.eqb_spec k k') as [->|]; cbn; [intuition|].
    fold (keys_of (map_push k n m)). rewrite IH. unfold keys_of. intuition.
Qed.

Lemma map_push_sorted k n m : StronglySorted Z.lt (keys_of m) -> StronglySorted Z.lt (keys_of (map_push k n m)).
Proof.
  induction m as [|[k' l] m IH]; intros H; cbn.
  - constructor; constructor.
  - cbn in H. inversion H as [|? ? H1 H2]; subst. destruct (Z.ltb_spec k k').
    + cbn. constructor; [exact H|]. constructor; [assumption|]. eapply Forall_impl; [|exact H2]. cbn; intros; lia.
    + destruct (Z.eqb_spec k k') as [->|]; cbn; [exact H|]. constructor; [now apply IH|].
      apply Forall_forall. intros x Hx. apply map_push_keys in Hx as [->|Hx]; [lia|].
      rewrite Forall_forall in H2. now apply H2.
Qed.

Lemma map_push_In k n m k' l' : StronglySorted Z.lt (keys_of m) ->
  (In (k', l') (map_push k n m) <->
   (k' <> k /\ In (k', l') m) \/
   (k' = k /\ ((exists l, In (k, l) m /\ l' = l ++ [n]) \/ (~ In k (keys_of m) /\ l' = [n])))).
Proof.
  induction m as [|[k0 l0] m IH]; intros H; cbn [map_push].
  - cbn. split.
    + intros [E|[]]. injection E as <- <-. right. split; [reflexivity|]. right. split; [intros []|reflexivity].
    + intros [[_ []]|(-> & [(l & [] & _)|(_ & ->)])]. now left.
  - cbn in H. inversion H as [|? ? H1 H2]; subst. specialize (IH H1).
    assert (Hin : forall x, In x (keys_of m) -> k0 < x) by (rewrite Forall_forall in H2; exact H2).
    assert (Hin2 : forall x l, In (x, l) m -> k0 < x) by (intros x l Hx; apply Hin, (in_map fst _ _ Hx)).
    destruct (Z.ltb_spec k k0).
    + split.
      * intros [E|[E|Hm]].
        -- injection E as <- <-. right. split; [reflexivity|]. right. split; [|reflexivity].
           cbn. intros [C|C]; [lia|apply Hin in C; lia].
        -- injection E as <- <-. left. split; [lia|]. now left.
        -- left. split; [apply Hin2 in Hm; lia|]. now right.
      * intros [(N & Hm)|(-> & [(l & Hl & ->)|(_ & ->)])]; [now right| |now left].
        exfalso. destruct Hl as [E|Hl]; [injection E as <- <-; lia|apply Hin2 in Hl; lia].
    + destruct (Z.eqb_spec k k0) as [->|Nk].
      * split.
        -- intros [E|Hm].
           ++ injection E as <- <-. right. split; [reflexivity|]. left. exists l0. split; [now left|reflexivity].
           ++ left. split; [apply Hin2 in Hm; lia|]. now right.
        -- intros [(N & [E|Hm])|(-> & [(l & Hl & ->)|(C & _)])].
           ++ injection E as <- <-. contradiction.
           ++ now right.
           ++ destruct Hl as [E|Hl]; [injection E as <-; now left|apply Hin2 in Hl; lia].
           ++ exfalso. apply C. now left.
      * split.
        -- intros [E|Hm].
           ++ injection E as <- <-. left. split; [lia|]. now left.
           ++ apply IH in Hm as [(N & Hm)|(-> & [(l & Hl & ->)|(C & ->)])].
              ** left. split; [exact N|now right].
              ** right. split; [reflexivity|]. left. exists l. split; [now right|reflexivity].
              ** right. split; [reflexivity|]. right. split; [|reflexivity]. cbn. intros [D|D]; [lia|contradiction].
        -- intros [(N & [E|Hm])|(-> & [(l & Hl & ->)|(C & ->)])].
           ++ now left.
           ++ right. apply IH. left. now split.
           ++ destruct Hl as [E|Hl]; [injection E as <- <-; lia|]. right. apply IH. right. split; [reflexivity|].
              left. exists l. now split.
           ++ right. apply IH. right. split; [reflexivity|]. right. split; [|reflexivity].
              intros D. apply C. now right.
Qed.

Lemma SS_snoc l n : StronglySorted Z.lt l -> (forall x, In x l -> x < n) -> StronglySorted Z.lt (l ++ [n]).
Proof.
  intros S H. induction S as [|a l S IH F]; cbn [app]; [repeat constructor|]. constructor; [apply IH; intros x Hx; apply H; now right|].
  rewrite Forall_forall in *. intros x Hx. apply in_app_iff in Hx as [Hx|[<-|[]]]; [now apply F|apply H; now left].
Qed.
(** The groups after the first [n] glyphs, whose keys are given by [f]. *)
Definition groups (f : Z -> Z) (n : Z) (m : list (Z * list Z)) : Prop :=
  StronglySorted Z.lt (keys_of m) /\
  (forall k l, In (k, l) m -> StronglySorted Z.lt l /\ forall i, In i l <-> 0 <= i < n /\ f i = k) /\
  (forall i, 0 <= i < n -> In (f i) (keys_of m)).

Lemma groups_push f n m : 0 <= n -> groups f n m -> groups f (n + 1) (map_push (f n) n m).
Proof.
  intros Hn (S & G & C). split; [now apply map_push_sorted|]. split.
  - intros k l H. apply map_push_In in H; [|exact S]. destruct H as [(N & H)|(-> & [(l0 & H & ->)|(H & ->)])].
    + destruct (G k l H) as (ND & Hi). split; [exact ND|]. intros i. rewrite Hi. split; [intros; lia|].
      intros (Hi' & E). split; [|exact E]. destruct (Z.eq_dec i n) as [->|]; [congruence|lia].
    + destruct (G _ l0 H) as (ND & Hi). split.
      * apply SS_snoc; [exact ND|]. intros x Hx. apply Hi in Hx. lia.
      * intros i. rewrite in_app_iff, Hi. cbn. split; [intros [|[<-|[]]]; [lia|split; [lia|reflexivity]]|].
        intros (Hi' & E). destruct (Z.eq_dec i n) as [->|]; [right; now left|left; split; [lia|exact E]].
    + split; [repeat constructor|]. intros i. cbn. split.
      * intros [<-|[]]. split; [lia|reflexivity].
      * intros (Hi' & E). left. destruct (Z.eq_dec i n) as [->|]; [reflexivity|].
        exfalso. apply H. rewrite <- E. apply C. lia.
  - intros i Hi. apply map_push_keys. destruct (Z.eq_dec i n) as [->|]; [now left|]. right. apply C. lia.
Qed.

Definition fw (glyphs : list (list oview)) (i : Z) : Z :=
  match nth (Z.to_nat i) glyphs [] with v :: _ => ov_word v | [] => 0 end.

Lemma words_map_ok glyphs rest done m :
  glyphs = done ++ rest -> Z.of_nat (List.length glyphs) < 4294967296 ->
  (forall g, In g glyphs -> g <> []) ->
  groups (fw glyphs) (Z.of_nat (List.length done)) m ->
  exists m', words_map rest (Z.of_nat (List.length done)) m = Ok m' /\
    groups (fw glyphs) (Z.of_nat (List.length glyphs)) m'.
Proof.
  revert done m. induction rest as [|g rest IH]; intros done m E Hl NE G.
  - rewrite app_nil_r in E. subst done. exists m. now split.
  - destruct g as [|v g].
    { exfalso. apply (NE []); [rewrite E; apply in_or_app; right; now left|reflexivity]. }
    cbn [words_map]. rewrite E, app_length in Hl. cbn [List.length] in Hl.
    rewrite u32_small by lia.
    specialize (IH (done ++ [v :: g]) (map_push (ov_word v) (Z.of_nat (List.length done)) m)).
    rewrite app_length in IH. cbn [List.length] in IH.
    replace (Z.of_nat (List.length done + 1)) with (Z.of_nat (List.length done) + 1) in IH by lia.
    apply IH.
    + rewrite <- app_assoc. exact E.
    + rewrite E, app_length. cbn [List.length]. lia.
    + exact NE.
    + replace (ov_word v) with (fw glyphs (Z.of_nat (List.length done))).
      * apply groups_push; [lia|exact G].
      * unfold fw. rewrite Nat2Z.id, E, app_nth2, Nat.sub_diag by lia. reflexivity.
Qed.

Lemma swap_each_ok l : forall done tmp out,
  NoDup l -> (forall i, In i l -> 0 <= i < Z.of_nat (List.length out)) ->
  exists out', swap_each done l tmp out = Ok out' /\ List.length out' = List.length out /\
    (forall i, 0 <= i -> ~ In i l -> nth (Z.to_nat i) out' [] = nth (Z.to_nat i) out []) /\
    (forall a i b, l = a ++ i :: b -> nth (Z.to_nat i) out' [] = done ++ tmp :: a ++ b).
Proof.
  induction l as [|a l IH]; intros done tmp out ND R; cbn [swap_each].
  - exists out. repeat split; auto. intros a i b E. destruct a; discriminate.
  - rewrite wr_ok by (apply R; now left). cbn [bind]. inversion ND as [|? ? Na ND']; subst.
    assert (Ra : 0 <= a < Z.of_nat (List.length out)) by (apply R; now left).
    destruct (IH (done ++ [tmp]) a (upd out (Z.to_nat a) (done ++ tmp :: l))) as (out' & E & L & O & P).
    + exact ND'.
    + rewrite upd_length. intros i Hi. apply R. now right.
    + exists out'. rewrite E. split; [reflexivity|]. rewrite upd_length in L. split; [exact L|]. split.
      * intros i Hi Ni. rewrite O; [|exact Hi|intros C; apply Ni; now right].
        apply nth_upd_other. intros C. apply Ni. left. lia.
      * intros [|x p] i b El; cbn [app] in El; injection El as -> El.
        -- subst b. rewrite O by (lia || exact Na). rewrite nth_upd_same by lia. reflexivity.
        -- rewrite (P p i b El), <- app_assoc. reflexivity.
Qed.

Lemma last_removelast (l : list Z) : l <> [] -> removelast l ++ [last l 0] = l.
Proof. intros H. symmetry. now apply app_removelast_last. Qed.

(** The rows of a group [l] in the order they are listed for the row [i]. *)
Definition scanned (l : list Z) (i : Z) (r : list Z) : Prop := l = r ++ [i] \/ exists a b t, l = a ++ i :: b ++ [t] /\ r = t :: a ++ b.
Lemma scanned_perm l i r : scanned l i r -> Permutation (i :: r) l.
Proof.
  intros [->|(a & b & t & -> & ->)]; [apply Permutation_cons_append|]. apply Permutation_cons_app. rewrite app_assoc. apply Permutation_cons_append.
Qed.

Lemma fill_ok f m : forall out,
  NoDup (keys_of m) -> (forall k l, In (k, l) m -> NoDup l /\
    forall i, In i l -> f i = k /\ 0 <= i < Z.of_nat (List.length out) /\ nth (Z.to_nat i) out [] = []) ->
  exists out', fill_by_words m out = Ok out' /\ List.length out' = List.length out /\
    forall k l i, In (k, l) m -> In i l -> scanned l i (nth (Z.to_nat i) out' []).
Proof.
  assert (Keep : forall m out, (forall k l, In (k, l) m -> NoDup l /\ forall i, In i l -> 0 <= i < Z.of_nat (List.length out)) ->
    exists out', fill_by_words m out = Ok out' /\ List.length out' = List.length out /\
      forall i, 0 <= i -> (forall k l, In (k, l) m -> ~ In i l) -> nth (Z.to_nat i) out' [] = nth (Z.to_nat i) out []).
  { clear m. induction m as [|[k l] m IH]; intros out H; cbn [fill_by_words].
    - exists out. repeat split; auto.
    - destruct (H k l (or_introl eq_refl)) as (ND & R).
      destruct (Z.ltb_spec 1 (Z.of_nat (List.length l))) as [Hl|Hl]; cbv zeta.
      + assert (Nl : l <> []) by (intros ->; cbn in Hl; lia).
        pose proof (last_removelast l Nl) as El. set (t := last l 0) in *. set (l' := removelast l) in *.
        rewrite <- El in ND, R.
        assert (Rt : 0 <= t < Z.of_nat (List.length out)) by (apply R, in_or_app; right; now left).
        rewrite wr_ok by exact Rt. cbn [bind].
        destruct (swap_each_ok l' [] t (upd out (Z.to_nat t) l')) as (o2 & E2 & L2 & O2 & _).
        * apply NoDup_remove_1 in ND. now rewrite app_nil_r in ND.
        * rewrite upd_length. intros i Hi. apply R, in_or_app. now left.
        * rewrite E2. cbn [bind]. rewrite upd_length in L2.
          destruct (IH o2) as (o3 & E3 & L3 & O3).
          { rewrite L2. intros k' l2 Hk. apply (H k' l2). now right. }
          exists o3. rewrite E3, L3, L2. split; [reflexivity|]. split; [reflexivity|].
          intros i Hi Ni. rewrite O3; [|exact Hi|intros k' l2 Hk; apply (Ni k' l2); now right].
          pose proof (Ni k l (or_introl eq_refl)) as Nil. rewrite <- El in Nil. rewrite in_app_iff in Nil.
          rewrite O2; [|exact Hi|tauto]. apply nth_upd_other. intros C. apply Nil. right. left. lia.
      + destruct (IH out) as (o3 & E3 & L3 & O3).
        { intros k' l2 Hk. apply (H k' l2). now right. }
        exists o3. split; [exact E3|]. split; [exact L3|]. intros i Hi Ni. apply O3; [exact Hi|].
        intros k' l2 Hk. apply (Ni k' l2). now right. }
  induction m as [|[k l] m IH]; intros out NK H; cbn [fill_by_words].
  - exists out. split; [reflexivity|]. split; [reflexivity|]. intros k l i [].
  - destruct (H k l (or_introl eq_refl)) as (ND & R). cbn in NK. inversion NK as [|? ? Nk NK']; subst.
    assert (Dis : forall i k' l2, In i l -> In (k', l2) m -> ~ In i l2).
    { intros i k' l2 Hi Hk C. destruct (R i Hi) as (F & _). destruct (H k' l2 (or_intror Hk)) as (_ & R2).
      destruct (R2 i C) as (F2 & _). apply Nk. rewrite <- F, F2. apply (in_map fst _ _ Hk). }
    destruct (Z.ltb_spec 1 (Z.of_nat (List.length l))) as [Hl|Hl]; cbv zeta.
    + assert (Nl : l <> []) by (intros ->; cbn in Hl; lia).
      pose proof (last_removelast l Nl) as El. set (t := last l 0) in *. set (l' := removelast l) in *.
      assert (Il : forall i, In i l <-> In i l' \/ i = t).
      { intros i. rewrite <- El, in_app_iff. cbn. intuition. }
      assert (Rt : 0 <= t < Z.of_nat (List.length out)) by (apply R, Il; now right).
      rewrite wr_ok by exact Rt. cbn [bind].
      assert (Nt : ~ In t l' /\ NoDup l').
      { rewrite <- El in ND. split; [|apply NoDup_remove_1 in ND; now rewrite app_nil_r in ND].
        apply NoDup_remove_2 in ND. now rewrite app_nil_r in ND. }
      destruct Nt as (Nt & NDl).
      destruct (swap_each_ok l' [] t (upd out (Z.to_nat t) l')) as (o2 & E2 & L2 & O2 & P2).
      * exact NDl.
      * rewrite upd_length. intros i Hi. apply R, Il. now left.
      * rewrite E2. cbn [bind]. rewrite upd_length in L2.
        destruct (IH o2) as (o3 & E3 & L3 & P3).
        { exact NK'. }
        { rewrite L2. intros k' l2 Hk. destruct (H k' l2 (or_intror Hk)) as (ND2 & R2). split; [exact ND2|].
          intros i Hi. destruct (R2 i Hi) as (F & Ri & Z0). split; [exact F|]. split; [exact Ri|].
          assert (Ni : ~ In i l) by (intros C; apply (Dis i k' l2 C Hk Hi)).
          rewrite Il in Ni. rewrite O2; [|lia|tauto]. rewrite nth_upd_other; [exact Z0|]. intros C. apply Ni. right. lia. }
        destruct (Keep m o2) as (o3' & E3' & L3' & O3').
        { rewrite L2. intros k' l2 Hk. destruct (H k' l2 (or_intror Hk)) as (ND2 & R2). split; [exact ND2|].
          intros i Hi. apply (R2 i Hi). }
        rewrite E3 in E3'. injection E3' as <-.
        exists o3. split; [exact E3|]. split; [lia|].
        intros k' l2 i [E|Hk] Hi; [|eapply P3; eauto]. injection E as <- <-.
        rewrite O3'; [|apply R in Hi; lia|intros k' l2 Hk; exact (Dis i k' l2 Hi Hk)].
        apply Il in Hi as [Hi| ->].
        -- right. apply in_split in Hi as (a & b & Eab). exists a, b, t. specialize (P2 a i b Eab). split; [rewrite <- El, Eab, <- app_assoc; reflexivity|exact P2].
        -- left. rewrite O2 by (lia || exact Nt). rewrite nth_upd_same by lia. symmetry. exact El.
    + destruct (IH out) as (o3 & E3 & L3 & P3).
      { exact NK'. }
      { intros k' l2 Hk. apply (H k' l2). now right. }
      destruct (Keep m out) as (o3' & E3' & L3' & O3').
      { intros k' l2 Hk. destruct (H k' l2 (or_intror Hk)) as (ND2 & R2). split; [exact ND2|].
        intros i Hi. apply (R2 i Hi). }
      rewrite E3 in E3'. injection E3' as <-.
      exists o3. split; [exact E3|]. split; [exact L3|].
      intros k' l2 i [E|Hk] Hi; [|eapply P3; eauto]. injection E as <- <-.
      destruct (R i Hi) as (F & Ri & Z0).
      rewrite O3'; [|lia|intros k' l2 Hk; exact (Dis i k' l2 Hi Hk)]. rewrite Z0.
      destruct l as [|a [|b l]]; [destruct Hi| |cbn in Hl; lia]. destruct Hi as [->|[]]. left. reflexivity.
Qed.

Lemma SS_lt_NoDup l : StronglySorted Z.lt l -> NoDup l.
Proof.
  induction 1 as [|a l H IH F]; constructor; auto. intros C. rewrite Forall_forall in F. apply F in C. lia.
Qed.

Lemma SS_lt_unique : forall l l', StronglySorted Z.lt l -> StronglySorted Z.lt l' -> (forall x, In x l <-> In x l') -> l = l'.
Proof.
  induction l as [|a l IH]; intros l' S1 S2 H.
  - destruct l' as [|b l']; [reflexivity|]. exfalso. apply (H b). now left.
  - destruct l' as [|b l']; [exfalso; apply (H a); now left|]. inversion S1 as [|? ? S1' F1]; inversion S2 as [|? ? S2' F2]; subst. rewrite Forall_forall in F1, F2.
    assert (E : a = b).
    { destruct (proj1 (H a) (or_introl eq_refl)) as [->|Ha]; [reflexivity|]. destruct (proj2 (H b) (or_introl eq_refl)) as [->|Hb]; [reflexivity|]. apply F2 in Ha. apply F1 in Hb. lia. }
    subst b. f_equal. apply IH; [exact S1'|exact S2'|]. intros x. split; intros Hx.
    + destruct (proj1 (H x) (or_intror Hx)) as [<-|Hx']; [apply F1 in Hx; lia|exact Hx'].
    + destruct (proj2 (H x) (or_intror Hx)) as [<-|Hx']; [apply F2 in Hx; lia|exact Hx'].
Qed.
Lemma SS_lt_filter f l : StronglySorted Z.lt l -> StronglySorted Z.lt (filter f l).
Proof.
  induction 1 as [|a l H IH F]; cbn [filter]; [constructor|]. destruct (f a); [|exact IH]. constructor; [exact IH|]. rewrite Forall_forall in *. intros x Hx. apply filter_In in Hx as (Hx & _). now apply F.
Qed.
Lemma SS_lt_parts a b : StronglySorted Z.lt (a ++ b) -> StronglySorted Z.lt a /\ StronglySorted Z.lt b /\ forall x y, In x a -> In y b -> x < y.
Proof.
  induction a as [|x a IH]; cbn [app]; intros H; [repeat split; [constructor|exact H|intros x y []]|]. inversion H as [|? ? H' F]; subst. destruct (IH H') as (A & B & C). rewrite Forall_forall in F.
  split; [|split; [exact B|]].
  - constructor; [exact A|]. rewrite Forall_forall. intros y Hy. apply F, in_or_app. now left.
  - intros u v [<-|Hu] Hv; [apply F, in_or_app; now right|now apply C].
Qed.
Lemma zrange_SS n : StronglySorted Z.lt (zrange n).
Proof.
  unfold zrange. generalize 0%nat as k. induction (Z.to_nat n) as [|m IH]; intros k; cbn [seq map]; [constructor|]. constructor; [apply IH|].
  rewrite Forall_forall. intros x Hx. apply in_map_iff in Hx as (y & <- & Hy). apply in_seq in Hy. lia.
Qed.
Lemma others_In glyphs i j : 0 <= i < Z.of_nat (List.length glyphs) -> (In j (others glyphs i) <-> same_word glyphs i j).
Proof.
  intros Hi. unfold others. rewrite filter_In, zrange_In. unfold same_word, word_eqb.
  destruct (first_word (nth (Z.to_nat i) glyphs [])) as [x|], (first_word (nth (Z.to_nat j) glyphs [])) as [y|]; rewrite ?andb_true_iff, ?negb_true_iff, ?Z.eqb_eq, ?Z.eqb_neq.
  - split; [intros (A & B & ->); auto|intros (_ & A & B & E); injection E as ->; auto].
  - split; [intros (_ & _ & C); discriminate|intros (_ & _ & _ & E); discriminate].
  - split; [intros (_ & _ & C); discriminate|intros (_ & _ & _ & E); discriminate].
  - split; [intros (A & B & _); auto|intros (_ & A & B & E); auto].
Qed.

(** The rows of each list, and their order. *)
Lemma by_words_order glyphs :
  Z.of_nat (List.length glyphs) < 4294967296 -> (forall g, In g glyphs -> g <> []) ->
  exists out, indexes_by_words glyphs = Ok out /\ List.length out = List.length glyphs /\
    forall i, 0 <= i < Z.of_nat (List.length glyphs) -> nth (Z.to_nat i) out [] = scan_order glyphs i.
Proof.
  intros Hl NE. unfold indexes_by_words.
  destruct (words_map_ok glyphs glyphs [] []) as (m & Em & S & G & C); auto.
  { split; [constructor|]. split; [intros k l []|]. cbn. intros; lia. }
  change (Z.of_nat (List.length [])) with 0 in Em. rewrite Em. cbn [bind].
  destruct (fill_ok (fw glyphs) m (repeat [] (List.length glyphs))) as (out & Eo & Lo & P).
  { now apply SS_lt_NoDup. }
  { rewrite repeat_length. intros k l Hk. destruct (G k l Hk) as (ND & Hi). split; [now apply SS_lt_NoDup|].
    intros i H. apply Hi in H as (R & F). split; [exact F|]. split; [exact R|]. apply nth_repeat. }
  rewrite repeat_length in Lo. exists out. split; [exact Eo|]. split; [exact Lo|].
  intros i Hi. pose proof (C i Hi) as K. apply in_map_iff in K as ([k l] & Ek & Hk). cbn in Ek.
  destruct (G k l Hk) as (ND & Hin).
  assert (Hil : In i l) by (apply Hin; auto).
  specialize (P k l i Hk Hil).
  assert (FW : forall j, 0 <= j < Z.of_nat (List.length glyphs) ->
    first_word (nth (Z.to_nat j) glyphs []) = Some (fw glyphs j)).
  { intros j Hj. unfold fw. assert (N : nth (Z.to_nat j) glyphs [] <> []) by (apply NE, nth_In; lia).
    destruct (nth (Z.to_nat j) glyphs []); [contradiction|reflexivity]. }
  assert (Ho : forall l', StronglySorted Z.lt l' -> (forall j, In j l' <-> In j l /\ j <> i) -> others glyphs i = l').
  { intros l' S' H'. apply SS_lt_unique; [apply SS_lt_filter, zrange_SS|exact S'|]. intros j. rewrite others_In by exact Hi. rewrite H', Hin. unfold same_word. split.
    - intros (_ & Rj & Nij & F). rewrite !FW in F by assumption. injection F as F. split; [split; [exact Rj|congruence]|congruence].
    - intros ((Rj & F) & Nij). split; [exact Hi|]. split; [exact Rj|]. split; [congruence|]. rewrite !FW by assumption. congruence. }
  unfold scan_order. cbv zeta. destruct P as [El|(a & b & t & El & ->)].
  - set (r := nth (Z.to_nat i) out []) in *. rewrite El in ND. destruct (SS_lt_parts _ _ ND) as (Sr & _ & Lt).
    rewrite (Ho r Sr).
    + destruct (Z.ltb_spec i (last r i)) as [L|L]; [exfalso|reflexivity]. clearbody r. destruct r as [|x r]; [cbn in L; lia|].
      assert (I : In (last (x :: r) i) (x :: r)).
      { rewrite (app_removelast_last i (l := x :: r)) at 2 by discriminate. apply in_or_app. right. now left. }
      specialize (Lt _ i I ltac:(now left)). lia.
    + intros j. rewrite El, in_app_iff. cbn [In]. split; [intros Hj; split; [now left|intros ->; specialize (Lt i i Hj ltac:(now left)); lia]|].
      intros ([Hj|[Hj|[]]] & N); [exact Hj|congruence].
  - rewrite El in ND. destruct (SS_lt_parts a _ ND) as (Sa & Sb & Lt). change (i :: b ++ [t]) with ([i] ++ b ++ [t]) in Sb. destruct (SS_lt_parts [i] _ Sb) as (_ & Sbt & Lt').
    rewrite (Ho (a ++ b ++ [t])).
    + rewrite app_assoc, last_last, removelast_last. specialize (Lt' i t ltac:(now left) ltac:(apply in_or_app; right; now left)). destruct (Z.ltb_spec i t); [reflexivity|lia].
    + clear - ND. induction a as [|x a IH]; cbn [app] in *; inversion ND as [|? ? N F]; subst; [exact N|]. constructor; [now apply IH|].
      rewrite Forall_forall in *. intros y Hy. apply F. apply in_app_iff in Hy as [Hy|Hy]; apply in_or_app; [now left|right; now right].
    + intros j. rewrite El, !in_app_iff. cbn [In]. rewrite in_app_iff. cbn [In]. split.
      * intros [Hj|[Hj|Hj]]; (split; [tauto|]); intros ->.
        -- specialize (Lt i i Hj ltac:(now left)). lia.
        -- specialize (Lt' i i ltac:(now left) ltac:(apply in_or_app; now left)). lia.
        -- specialize (Lt' i i ltac:(now left) ltac:(apply in_or_app; now right)). lia.
      * intros ([Hj|[Hj|[Hj|Hj]]] & N); [tauto|congruence|tauto|tauto].
Qed.
Lemma scan_order_In glyphs i j : In j (scan_order glyphs i) <-> In j (others glyphs i).
Proof.
  unfold scan_order. cbv zeta. destruct (i <? last (others glyphs i) i) eqn:E; [|reflexivity]. destruct (others glyphs i) as [|x o] eqn:Eo; [cbn in E; lia|].
  rewrite (app_removelast_last i (l := x :: o)) at 3 by discriminate. rewrite in_app_iff. cbn [In]. tauto.
Qed.
Lemma scan_order_NoDup glyphs i : NoDup (scan_order glyphs i).
Proof.
  pose proof (SS_lt_NoDup _ (SS_lt_filter (fun j => negb (i =? j) && word_eqb (nth (Z.to_nat i) glyphs []) (nth (Z.to_nat j) glyphs [])) _ (zrange_SS (Z.of_nat (List.length glyphs))))) as N.
  fold (others glyphs i) in N. unfold scan_order. cbv zeta. destruct (i <? last (others glyphs i) i) eqn:E; [|exact N]. destruct (others glyphs i) as [|x o] eqn:Eo; [constructor; [intros []|constructor]|].
  rewrite (app_removelast_last i (l := x :: o)) in N by discriminate. apply (Permutation_NoDup (l := removelast (x :: o) ++ [last (x :: o) i])); [|exact N]. symmetry. apply Permutation_cons_append.
Qed.
Lemma by_words_exact glyphs :
  Z.of_nat (List.length glyphs) < 4294967296 -> (forall g, In g glyphs -> g <> []) ->
  exists out, indexes_by_words glyphs = Ok out /\ List.length out = List.length glyphs /\
    forall i, 0 <= i < Z.of_nat (List.length glyphs) ->
      NoDup (nth (Z.to_nat i) out []) /\
      forall j, In j (nth (Z.to_nat i) out []) <-> same_word glyphs i j.
Proof.
  intros Hl NE. destruct (by_words_order glyphs Hl NE) as (out & E & L & H). exists out. split; [exact E|]. split; [exact L|]. intros i Hi. rewrite (H i Hi).
  split; [apply scan_order_NoDup|]. intros j. rewrite scan_order_In. now apply others_In.
Qed.

Lemma words_map_unlabelled : forall a b n m, words_map (map (fun v => [v]) a ++ [] :: b) n m = UB.
Proof. induction a as [|v a IH]; intros b n m; cbn [map app words_map]; [reflexivity|apply IH]. Qed.
Lemma by_words_unlabelled a b : indexes_by_words (map (fun v => [v]) a ++ [] :: b) = UB.
Proof. unfold indexes_by_words. now rewrite words_map_unlabelled. Qed.
