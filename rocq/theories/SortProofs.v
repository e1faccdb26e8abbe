(** Sorting and binary search. *)
From Verif Require Import Base BaseProofs SortModel.
From Coq Require Import Permutation Sorted.

Lemma strict_weak_incl {A} (lt : A -> A -> bool) l l' :
  strict_weak lt l -> incl l' l -> strict_weak lt l'.
Proof.
  intros (H1 & H2 & H3) I. split; [|split]; intros.
  - apply H1; auto.
  - apply (H2 a b c); auto.
  - apply (H3 a b c); auto.
Qed.

Lemma strict_weak_asym {A} (lt : A -> A -> bool) l a b :
  strict_weak lt l -> In a l -> In b l -> lt a b = true -> lt b a = false.
Proof.
  intros (H1 & H2 & H3) Ha Hb E. destruct (lt b a) eqn:E'; [|reflexivity].
  rewrite <- (H1 a Ha). symmetry. apply (H2 a b a); auto.
Qed.

Lemma insert_perm {A} (lt : A -> A -> bool) a l : Permutation (a :: l) (insert_by lt a l).
Proof.
  induction l as [|b l IH]; cbn [insert_by]; [reflexivity|].
  destruct (lt b a); [|reflexivity]. rewrite perm_swap. now constructor.
Qed.

Lemma insert_sorted {A} (lt : A -> A -> bool) a l :
  strict_weak lt (a :: l) -> sorted_by lt l -> sorted_by lt (insert_by lt a l).
Proof.
  unfold sorted_by. induction l as [|b l IH]; intros Hs Hl; cbn [insert_by].
  - constructor; constructor.
  - inversion Hl as [|? ? Hl1 Hl2]; subst. destruct (lt b a) eqn:E.
    + constructor.
      * apply IH; auto. eapply strict_weak_incl; [exact Hs|]. intros x [->|Hx]; [now left|right; now right].
      * rewrite Forall_forall in *. intros x Hx.
        apply (Permutation_in x (Permutation_sym (insert_perm lt a l))) in Hx.
        destruct Hx as [<-|Hx]; [|now apply Hl2].
        eapply strict_weak_asym; [exact Hs|right; now left|now left|exact E].
    + constructor; [constructor; auto|]. rewrite Forall_forall in *. intros x [<-|Hx]; [exact E|].
      destruct Hs as (_ & _ & H3). apply (H3 x b a); auto; [right; now right|right; now left|now left].
Qed.

Lemma isort_perm {A} (lt : A -> A -> bool) l : Permutation l (isort lt l).
Proof.
  induction l as [|a l IH]; cbn; [constructor|]. rewrite <- insert_perm. now constructor.
Qed.

Lemma isort_is_sort {A} (lt : A -> A -> bool) : is_std_sort lt (isort lt).
Proof.
  intros l Hs. split; [apply isort_perm|].
  induction l as [|a l IH]; cbn [isort fold_right]; [constructor|].
  apply insert_sorted.
  - eapply strict_weak_incl; [exact Hs|]. intros x [->|Hx]; [now left|]. right.
    apply (Permutation_in x (Permutation_sym (isort_perm lt l)) Hx).
  - apply IH. eapply strict_weak_incl; [exact Hs|]. intros x Hx; now right.
Qed.

Lemma sorted_by_nth {A} (lt : A -> A -> bool) l i j a b :
  sorted_by lt l -> (i < j)%nat -> nth_error l i = Some a -> nth_error l j = Some b -> lt b a = false.
Proof.
  unfold sorted_by. intros H; revert i j. induction H as [|c l H IH Hf]; intros i j Hij Ha Hb.
  - destruct i; discriminate.
  - destruct i as [|i], j as [|j]; cbn in *; try lia.
    + injection Ha as <-. rewrite Forall_forall in Hf. apply Hf. eapply nth_error_In; eauto.
    + apply (IH i j); auto; lia.
Qed.

Lemma zltb_strict_weak l : strict_weak Z.ltb l.
Proof. split; [|split]; intros; lia. Qed.

(** Binary search: with [p] true up to some point and false after it, the
    result is that point. *)
Lemma halving_ok (p : Z -> res bool) (q : Z -> bool) fuel lo len :
  0 <= len -> (Z.to_nat len < fuel)%nat ->
  (forall i, lo <= i < lo + len -> p i = Ok (q i)) ->
  (forall i j, lo <= i -> i <= j -> j < lo + len -> q j = true -> q i = true) ->
  exists r, halving fuel p lo len = Ok r /\ lo <= r <= lo + len /\
    (forall i, lo <= i < r -> q i = true) /\ (forall i, r <= i < lo + len -> q i = false).
Proof.
  revert lo len. induction fuel as [|f IH]; intros lo len Hlen Hf Hp Hm; [lia|].
  cbn [halving]. destruct (Z.leb_spec len 0) as [H0|H0].
  - exists lo. split; [reflexivity|]. split; [lia|]. split; intros; lia.
  - assert (Hh : 0 <= len / 2 < len) by (split; [apply Z.div_pos; lia|apply Z.div_lt_upper_bound; lia]).
    set (half := len / 2) in *. clearbody half. cbv zeta.
    rewrite Hp by lia. cbn [bind]. destruct (q (lo + half)) eqn:Eq.
    + destruct (IH (lo + half + 1) (len - half - 1)) as (r & E & Hr & H1 & H2); try lia.
      * intros i Hi. apply Hp; lia.
      * intros i j Hi Hij Hj. apply Hm; lia.
      * exists r. split; [exact E|]. split; [lia|]. split.
        -- intros i Hi. destruct (Z.le_gt_cases i (lo + half)).
           ++ apply (Hm i (lo + half)); auto; lia.
           ++ apply H1; lia.
        -- intros i Hi. apply H2; lia.
    + destruct (IH lo half) as (r & E & Hr & H1 & H2); try lia.
      * intros i Hi. apply Hp; lia.
      * intros i j Hi Hij Hj. apply Hm; lia.
      * exists r. split; [exact E|]. split; [lia|]. split; [exact H1|].
        intros i Hi. destruct (Z.lt_ge_cases i (lo + half)); [apply H2; lia|].
        destruct (q i) eqn:Ei; [|reflexivity]. rewrite (Hm (lo + half) i) in Eq by (auto; lia). discriminate.
Qed.

Lemma partition_point_ok (p : Z -> res bool) (q : Z -> bool) lo hi :
  lo <= hi ->
  (forall i, lo <= i < hi -> p i = Ok (q i)) ->
  (forall i j, lo <= i -> i <= j -> j < hi -> q j = true -> q i = true) ->
  exists r, partition_point p lo hi = Ok r /\ lo <= r <= hi /\
    (forall i, lo <= i < r -> q i = true) /\ (forall i, r <= i < hi -> q i = false).
Proof.
  intros H Hp Hm. unfold partition_point.
  destruct (halving_ok p q (S (Z.to_nat (hi - lo))) lo (hi - lo)) as (r & E & Hr & H1 & H2); try lia.
  - intros i Hi. apply Hp; lia.
  - intros i j Hi Hij Hj. apply Hm; lia.
  - exists r. split; [exact E|]. split; [lia|]. split; [exact H1|]. intros i Hi. apply H2; lia.
Qed.
