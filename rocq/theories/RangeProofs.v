(** Proofs about ranges. *)
From Verif Require Import Base BaseProofs SortModel SortProofs IndexModel IndexSpec IndexProofs RangeModel RangeSpec.

Section Range.
Context {A B : Type}.
Implicit Types r : @range A B.

Lemma placed_between r : well_placed r -> exists l, between r l.
Proof.
  intros (H1 & H2). exists (firstn (Z.to_nat (rg_last r - rg_first r)) (skipn (Z.to_nat (rg_first r)) (rg_mem r))).
  exists (firstn (Z.to_nat (rg_first r)) (rg_mem r)), (skipn (Z.to_nat (rg_last r - rg_first r)) (skipn (Z.to_nat (rg_first r)) (rg_mem r))).
  split; [|rewrite app_length, !firstn_length, skipn_length; lia]. now rewrite !firstn_skipn.
Qed.
Lemma between_placed r l : between r l -> well_placed r /\ range_size r = Z.of_nat (List.length l).
Proof. intros (b & a & E & F & L). unfold well_placed, range_size. rewrite E, !app_length in *. lia. Qed.
Lemma app_cut (C : Type) (b b' x y : list C) : List.length b = List.length b' -> b ++ x = b' ++ y -> b = b' /\ x = y.
Proof.
  revert b'. induction b as [|c b IH]; intros [|c' b'] L E; try discriminate; [auto|]. cbn [app] in E. injection E as -> E. cbn [List.length] in L. destruct (IH b' ltac:(lia) E) as (-> & ->). auto.
Qed.
Lemma between_unique r l l' : between r l -> between r l' -> l = l'.
Proof.
  intros (b & a & E & F & L) (b' & a' & E' & F' & L'). rewrite app_length in L, L'. rewrite E in E'. apply app_cut in E' as (_ & E'); [|lia]. apply app_cut in E' as (E' & _); [exact E'|lia].
Qed.

Lemma rd_cell (l : list A) p a : rd l p = Ok a <-> 0 <= p /\ nth_error l (Z.to_nat p) = Some a.
Proof.
  unfold rd. destruct (Z.ltb_spec p 0); [split; [discriminate|lia]|]. destruct (nth_error l (Z.to_nat p)); split; try discriminate.
  - intros E. injection E as ->. auto.
  - intros (_ & E). congruence.
  - intros (_ & E). discriminate.
Qed.
Lemma between_cell r l i a : between r l -> nth_error l i = Some a -> rd (rg_mem r) (rg_first r + Z.of_nat i) = Ok a.
Proof.
  intros (b & c & E & F & L) N. apply rd_cell. split; [lia|]. rewrite E. assert (Li : (i < List.length l)%nat) by (apply nth_error_Some; congruence).
  rewrite nth_error_app2 by lia. replace (Z.to_nat (rg_first r + Z.of_nat i) - List.length b)%nat with i by lia. now rewrite nth_error_app1.
Qed.
Lemma move_ok r p n : 0 <= p + n <= Z.of_nat (List.length (rg_mem r)) -> move r p n = Ok (p + n).
Proof. intros H. unfold move. destruct (Z.leb_spec 0 (p + n)); [|lia]. destruct (Z.leb_spec (p + n) (Z.of_nat (List.length (rg_mem r)))); [reflexivity|lia]. Qed.
Lemma move_inv r p n q : move r p n = Ok q -> q = p + n /\ 0 <= q <= Z.of_nat (List.length (rg_mem r)).
Proof. unfold move. destruct (Z.leb_spec 0 (p + n)); [|discriminate]. destruct (Z.leb_spec (p + n) (Z.of_nat (List.length (rg_mem r)))); [|discriminate]. cbn [andb]. intros E. injection E as <-. lia. Qed.

Lemma loop_step {St R : Type} fuel (body : St -> res (St + R)) s : loop (S fuel) body s = match body s with Ok (inl s') => loop fuel body s' | Ok (inr r) => Ok r | Throw x => Throw x | UB => UB | NoFuel => NoFuel end.
Proof. reflexivity. Qed.
Definition for_body r := fun '(p, out) => if p =? rg_last r then Ok (inr out) else x <- star r p ;; q <- move r p 1 ;; Ok (inl (q, out ++ [x])).
Lemma for_from r l : between r l -> forall k fuel out, (k <= List.length l)%nat -> (List.length l - k < fuel)%nat ->
  loop fuel (for_body r) (rg_first r + Z.of_nat k, out) = Ok (out ++ map (rg_proxy r) (skipn k l)).
Proof.
  intros H k. destruct (between_placed r l H) as ((P1 & P2) & P3). unfold range_size in P3. remember (List.length l - k)%nat as m eqn:Em. revert k Em. induction m as [|m IH]; intros k Em fuel out Hk Hf; (destruct fuel as [|fuel]; [lia|]); rewrite loop_step; unfold for_body at 1.
  - destruct (Z.eqb_spec (rg_first r + Z.of_nat k) (rg_last r)); [|lia]. rewrite skipn_all2 by lia. cbn [map]. now rewrite app_nil_r.
  - destruct (Z.eqb_spec (rg_first r + Z.of_nat k) (rg_last r)); [lia|]. destruct (nth_error l k) as [a|] eqn:N; [|apply nth_error_None in N; lia].
    unfold star. rewrite (between_cell r l k a H N). cbn [bind]. rewrite move_ok by lia. cbn [bind]. replace (rg_first r + Z.of_nat k + 1) with (rg_first r + Z.of_nat (S k)) by lia.
    rewrite IH by lia. assert (Es : skipn k l = a :: skipn (S k) l).
    { clear - N. revert k N. induction l as [|b l IH]; intros [|k] N; try discriminate; [injection N as ->; reflexivity|]. exact (IH k N). }
    rewrite Es. cbn [map]. now rewrite <- app_assoc.
Qed.
(** The loop. *)
Lemma range_for_ok r l : between r l -> range_for r = Ok (map (rg_proxy r) l).
Proof.
  intros H. pose proof (for_from r l H 0 (S (S (List.length (rg_mem r)))) []) as E. destruct H as (b & c & Em & _). cbn [app skipn Z.of_nat] in E. rewrite Z.add_0_r in E. apply E; [lia|]. rewrite Em, !app_length. lia.
Qed.
(** Outside the buffer, or in the wrong order. *)
Lemma for_ub r k : forall p out fuel, (forall q, p <= q <= Z.of_nat (List.length (rg_mem r)) -> q <> rg_last r) -> 0 <= p -> Z.of_nat (List.length (rg_mem r)) - p < Z.of_nat k -> (k < fuel)%nat ->
  p <= Z.of_nat (List.length (rg_mem r)) -> loop fuel (for_body r) (p, out) = UB.
Proof.
  induction k as [|k IH]; intros p out fuel Hn Hp Hk Hf Hl; [lia|]. destruct fuel as [|fuel]; [lia|]. rewrite loop_step. unfold for_body at 1. destruct (Z.eqb_spec p (rg_last r)) as [E|_]; [destruct (Hn p ltac:(lia) E)|].
  unfold star. destruct (rd (rg_mem r) p) as [a| | |] eqn:R; [|unfold rd in R; destruct (p <? 0); [discriminate|]; destruct (nth_error _ _); discriminate|reflexivity|unfold rd in R; destruct (p <? 0); [discriminate|]; destruct (nth_error _ _); discriminate].
  cbn [bind]. apply rd_cell in R as (_ & R). assert (p < Z.of_nat (List.length (rg_mem r))) by (assert (Z.to_nat p < List.length (rg_mem r))%nat by (apply nth_error_Some; congruence); lia).
  rewrite move_ok by lia. cbn [bind]. apply IH; [intros q Hq; apply Hn; lia|lia..].
Qed.
Lemma range_for_ub r : 0 <= rg_first r <= Z.of_nat (List.length (rg_mem r)) -> ~ well_placed r -> range_for r = UB.
Proof.
  intros H W. apply (for_ub r (S (List.length (rg_mem r)))); try lia. intros q Hq E. apply W. unfold well_placed. lia.
Qed.
(** The elements. *)
Lemma range_at_ok r l i : between r l -> 0 <= i -> match nth_error l (Z.to_nat i) with Some a => range_at r i = Ok (rg_proxy r a) | None => True end.
Proof.
  intros H Hi. destruct (nth_error l (Z.to_nat i)) as [a|] eqn:N; [|exact I]. destruct (between_placed r l H) as ((P1 & P2) & P3). unfold range_size in P3.
  assert (Z.to_nat i < List.length l)%nat by (apply nth_error_Some; congruence). unfold range_at, it_at. rewrite move_ok by lia. cbn [bind].
  pose proof (between_cell r l _ a H N) as E. rewrite Z2Nat.id in E by lia. rewrite E. reflexivity.
Qed.
Lemma range_ends r l : between r l -> range_empty r = match l with [] => true | _ => false end /\
  match l with [] => True | a :: l' => range_front r = Ok (rg_proxy r a) /\ range_back r = Ok (rg_proxy r (last l' a)) end.
Proof.
  intros H. destruct (between_placed r l H) as ((P1 & P2) & P3). unfold range_size in P3. split.
  - unfold range_empty. destruct l; cbn [List.length] in P3; [apply Z.eqb_eq|apply Z.eqb_neq]; lia.
  - destruct l as [|a l]; [exact I|]. cbn [List.length] in P3. split.
    + unfold range_front, star. pose proof (between_cell r _ 0%nat a H eq_refl) as E. cbn [Z.of_nat] in E. rewrite Z.add_0_r in E. rewrite E. reflexivity.
    + unfold range_back. rewrite move_ok by lia. cbn [bind]. unfold star.
      assert (N : nth_error (a :: l) (List.length l) = Some (last l a)).
      { clear. revert a. induction l as [|b l IH]; intros a; [reflexivity|]. cbn [List.length nth_error]. rewrite (IH b). f_equal. clear. revert a b. induction l as [|c l IH]; intros a b; [reflexivity|]. change (last (b :: c :: l) a) with (last (c :: l) a). rewrite <- (IH a c). symmetry. exact (IH b c). }
      pose proof (between_cell r _ _ _ H N) as E. replace (rg_first r + Z.of_nat (List.length l)) with (rg_last r + -1) in E by lia. rewrite E. reflexivity.
Qed.
(** The iterators that are moved have no proxy. *)
Lemma moved_plain r l i a : between r l -> nth_error l i = Some a ->
  star r (rg_first r + Z.of_nat i) = Ok (rg_proxy r a) /\ star_post r (rg_first r + Z.of_nat i) = Ok (a, rg_first r + Z.of_nat (S i)) /\ star_plus r (rg_first r) (Z.of_nat i) = Ok a /\
  match nth_error l (S i) with Some b => star_pre r (rg_first r + Z.of_nat i) = Ok (b, rg_first r + Z.of_nat (S i)) | None => True end.
Proof.
  intros H N. destruct (between_placed r l H) as ((P1 & P2) & P3). unfold range_size in P3. assert (Li : (i < List.length l)%nat) by (apply nth_error_Some; congruence).
  pose proof (between_cell r l i a H N) as E. unfold star, star_post, star_plus, star_pre. rewrite !move_ok by lia. cbn [bind]. rewrite E. cbn [bind].
  replace (rg_first r + Z.of_nat i + 1) with (rg_first r + Z.of_nat (S i)) by lia. split; [reflexivity|]. split; [reflexivity|]. split; [reflexivity|].
  destruct (nth_error l (S i)) as [b|] eqn:N'; [|exact I]. rewrite (between_cell r l (S i) b H N'). reflexivity.
Qed.
End Range.

(** * The ranges of the indexes *)
Section Index.
Context (sort : list Z -> list Z) (data : list Z) (Hsort : is_std_sort (index_lt data) sort).
Let n := Z.of_nat (List.length data).
Lemma index_range_ok x d : exists r l, index_range data (indexes_ordered sort data) x d = Ok r /\ between r l /\ get_range data (indexes_ordered sort data) x d = Ok l /\ range_for r = Ok l /\ rg_proxy r = (fun i => i).
Proof.
  set (start := if d <? x then x - d else 0). set (stop := u32 (x + d)). set (idx := indexes_ordered sort data).
  assert (K : exists a b, range_bounds data idx start stop = Ok (a, b) /\ 0 <= a <= b /\ b <= n).
  { unfold range_bounds. fold n. assert (N0 : 0 <= n) by (unfold n; lia).
    destruct (partition_point_ok (fun k => i <- rd idx k ;; v <- rd data i ;; Ok (v <? start)) (fun k => cell_at data (nth (Z.to_nat k) idx 0) <? start) 0 n) as (a & Ea & Ha & _).
    - exact N0.
    - intros i Hi. apply (idx_read sort data Hsort i (fun v => v <? start)). lia.
    - intros i j Hi Hij Hj Hq. pose proof (at_mono sort data Hsort i j Hi Hij Hj). unfold idx in *. lia.
    - rewrite Ea. cbn [bind].
      destruct (partition_point_ok (fun k => i <- rd idx k ;; v <- rd data i ;; Ok (negb (stop <? v))) (fun k => negb (stop <? cell_at data (nth (Z.to_nat k) idx 0))) a n) as (b & Eb & Hb & _).
      + lia.
      + intros i Hi. apply (idx_read sort data Hsort i (fun v => negb (stop <? v))). lia.
      + intros i j Hi Hij Hj Hq. pose proof (at_mono sort data Hsort i j ltac:(lia) Hij Hj). unfold idx in *. lia.
      + rewrite Eb. cbn [bind]. exists a, b. split; [reflexivity|]. lia. }
  destruct K as (a & b & E & H1 & H2). pose proof (idx_length sort data Hsort) as L. fold idx in L.
  set (r := mkrg idx a b (fun i : Z => i)). set (l := firstn (Z.to_nat (b - a)) (skipn (Z.to_nat a) idx)).
  assert (Bt : between r l).
  { destruct (placed_between r) as (l' & B); [unfold well_placed, r; cbn [rg_first rg_last rg_mem]; unfold n in *; lia|].
    assert (l' = l); [|subst; exact B]. apply (between_unique r); [exact B|]. exists (firstn (Z.to_nat a) idx), (skipn (Z.to_nat (b - a)) (skipn (Z.to_nat a) idx)). unfold l, r. cbn [rg_mem rg_first rg_last].
    split; [now rewrite !firstn_skipn|]. rewrite app_length, !firstn_length, skipn_length. unfold n in *. lia. }
  exists r, l. split; [unfold index_range; fold start stop; rewrite E; reflexivity|]. split; [exact Bt|]. split; [unfold get_range; fold start stop; rewrite E; reflexivity|].
  split; [|reflexivity]. rewrite (range_for_ok r l Bt). cbn [rg_proxy r]. now rewrite map_id.
Qed.
End Index.
