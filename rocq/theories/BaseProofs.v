(** Lemmas about the conventions of [Base]. *)
From Verif Require Import Base.
From Coq Require Export ZifyBool ZifyNat.
From Coq Require Import Permutation.

Ltac Zify.zify_post_hook ::= Z.div_mod_to_equations.

Lemma bind_Ok {A B} (m : res A) (k : A -> res B) b :
  bind m k = Ok b -> exists a, m = Ok a /\ k a = Ok b.
Proof. destruct m; simpl; intros H; try discriminate; eauto. Qed.

Lemma bind_ok {A B} (a : A) (k : A -> res B) : bind (Ok a) k = k a.
Proof. reflexivity. Qed.

Lemma u32_small z : 0 <= z < 4294967296 -> u32 z = z.
Proof. intros H; unfold u32; apply Z.mod_small; exact H. Qed.

Lemma u32_range z : 0 <= u32 z < 4294967296.
Proof. unfold u32; apply Z.mod_pos_bound; reflexivity. Qed.

Lemma u32_u32 z : u32 (u32 z) = u32 z.
Proof. apply u32_small, u32_range. Qed.

Lemma u64_small z : 0 <= z < 18446744073709551616 -> u64 z = z.
Proof. intros H; unfold u64; apply Z.mod_small; exact H. Qed.

Lemma divu_ok a b : b <> 0 -> divu a b = Ok (a / b).
Proof. intros H; unfold divu; destruct (Z.eqb_spec b 0); congruence. Qed.

Lemma rd_ok {A} (l : list A) i a :
  0 <= i -> nth_error l (Z.to_nat i) = Some a -> rd l i = Ok a.
Proof.
  intros Hi Hn; unfold rd. destruct (Z.ltb_spec i 0); [lia|]. now rewrite Hn.
Qed.

Lemma rd_inv {A} (l : list A) i a :
  rd l i = Ok a -> 0 <= i /\ nth_error l (Z.to_nat i) = Some a.
Proof.
  unfold rd. destruct (Z.ltb_spec i 0); [discriminate|].
  destruct (nth_error l (Z.to_nat i)) eqn:E; intros H1; [|discriminate].
  injection H1 as <-; auto.
Qed.

Lemma rd_lt {A} (l : list A) i :
  0 <= i < Z.of_nat (List.length l) -> exists a, rd l i = Ok a.
Proof.
  intros H. destruct (nth_error l (Z.to_nat i)) eqn:E.
  - exists a. apply rd_ok; [lia|exact E].
  - apply nth_error_None in E. lia.
Qed.

Lemma rd_nth {A} (d : A) (l : list A) i :
  0 <= i < Z.of_nat (List.length l) -> rd l i = Ok (nth (Z.to_nat i) l d).
Proof.
  intros H. apply rd_ok; [lia|]. apply nth_error_nth'. lia.
Qed.

Lemma rd_UB {A} (l : list A) i :
  (i < 0 \/ Z.of_nat (List.length l) <= i) -> rd l i = UB.
Proof.
  intros H; unfold rd. destruct (Z.ltb_spec i 0); [reflexivity|].
  destruct (nth_error l (Z.to_nat i)) eqn:E; [|reflexivity].
  assert (nth_error l (Z.to_nat i) <> None) by congruence.
  apply nth_error_Some in H1. lia.
Qed.

Lemma upd_length {A} (l : list A) n v : List.length (upd l n v) = List.length l.
Proof. revert n; induction l as [|a l IH]; intros [|n]; simpl; auto. Qed.

Lemma upd_nth_same {A} (l : list A) n v :
  (n < List.length l)%nat -> nth_error (upd l n v) n = Some v.
Proof.
  revert n; induction l as [|a l IH]; intros [|n] H; simpl in *; try lia; auto.
  apply IH; lia.
Qed.

Lemma upd_nth_other {A} (l : list A) n m v :
  n <> m -> nth_error (upd l n v) m = nth_error l m.
Proof.
  revert n m; induction l as [|a l IH]; intros [|n] [|m] H; simpl; auto; try lia.
Qed.

Lemma wr_ok {A} (l : list A) i v :
  0 <= i < Z.of_nat (List.length l) -> wr l i v = Ok (upd l (Z.to_nat i) v).
Proof.
  intros H; unfold wr.
  destruct (Z.ltb_spec i 0); [lia|].
  destruct (Z.leb_spec (Z.of_nat (List.length l)) i); [lia|]. reflexivity.
Qed.

Lemma emit_ok {A} cap (out : list A) v :
  Z.of_nat (List.length out) < cap -> emit cap out v = Ok (out ++ [v]).
Proof. intros H; unfold emit. destruct (Z.ltb_spec (Z.of_nat (List.length out)) cap); [reflexivity|lia]. Qed.

(** Total-correctness rule for [loop]. *)
Lemma loop_total {St R : Type} (body : St -> res (St + R))
    (I : St -> Prop) (m : St -> nat) (Q : R -> Prop) :
  (forall s, I s ->
     match body s with
     | Ok (inl s') => I s' /\ (m s' < m s)%nat
     | Ok (inr r) => Q r
     | _ => False
     end) ->
  forall fuel s, I s -> (m s < fuel)%nat ->
    exists r, loop fuel body s = Ok r /\ Q r.
Proof.
  intros Hb fuel; induction fuel as [|f IH]; intros s HI Hm; [lia|].
  specialize (Hb s HI). simpl.
  destruct (body s) as [[s'|r]|e| |]; try contradiction.
  - destruct Hb as [HI' Hm']. apply IH; [exact HI'|lia].
  - eauto.
Qed.

(** The same for loops whose states carry extra information into [Q]. *)
Lemma loop_det {St R : Type} (body : St -> res (St + R)) :
  forall fuel s r, loop fuel body s = Ok r ->
  forall fuel', (fuel <= fuel')%nat -> loop fuel' body s = Ok r.
Proof.
  induction fuel as [|f IH]; intros s r H fuel' Hle; [discriminate|].
  destruct fuel' as [|f']; [lia|].
  simpl in *. destruct (body s) as [[s'|r']|e| |]; try discriminate; auto.
  apply IH; [exact H|lia].
Qed.

(** Partial-correctness rule for [loop]. *)
Lemma loop_partial {St R : Type} (body : St -> res (St + R))
    (I : St -> Prop) (Q : R -> Prop) :
  (forall s, I s ->
     match body s with
     | Ok (inl s') => I s'
     | Ok (inr r) => Q r
     | _ => True
     end) ->
  forall fuel s r, I s -> loop fuel body s = Ok r -> Q r.
Proof.
  intros Hb fuel; induction fuel as [|f IH]; intros s r HI H; [discriminate|].
  specialize (Hb s HI). simpl in H.
  destruct (body s) as [[s'|r']|e| |]; try discriminate.
  - exact (IH _ _ Hb H).
  - injection H as <-. exact Hb.
Qed.

Lemma for_up_total {St : Type} (body : Z -> St -> res St) (I : Z -> St -> Prop) :
  forall n i0,
  (forall i s, i0 <= i < i0 + Z.of_nat n -> I i s ->
     exists s', body i s = Ok s' /\ I (i + 1) s') ->
  forall s, I i0 s -> exists s', for_up n i0 body s = Ok s' /\ I (i0 + Z.of_nat n) s'.
Proof.
  induction n as [|n IH]; intros i0 Hb s HI.
  - exists s; split; [reflexivity|]. now replace (i0 + Z.of_nat 0) with i0 by lia.
  - destruct (Hb i0 s) as (s1 & E1 & HI1); [lia|exact HI|].
    destruct (IH (i0 + 1)) with (s := s1) as (s2 & E2 & HI2).
    + intros i s' Hi HI'. apply Hb; [lia|exact HI'].
    + exact HI1.
    + exists s2; split.
      * simpl. rewrite E1. simpl. exact E2.
      * now replace (i0 + Z.of_nat (S n)) with (i0 + 1 + Z.of_nat n) by lia.
Qed.

Lemma zrange_length n : List.length (zrange n) = Z.to_nat n.
Proof. unfold zrange. now rewrite map_length, seq_length. Qed.

Lemma zrange_In n i : In i (zrange n) <-> 0 <= i < n.
Proof.
  unfold zrange. rewrite in_map_iff. split.
  - intros (k & <- & Hk). apply in_seq in Hk. lia.
  - intros H. exists (Z.to_nat i). split; [lia|]. apply in_seq. lia.
Qed.

Lemma zrange_S n : 0 <= n -> zrange (n + 1) = zrange n ++ [n].
Proof.
  intros H. unfold zrange.
  replace (Z.to_nat (n + 1)) with (S (Z.to_nat n)) by lia.
  rewrite seq_S, map_app. simpl. now rewrite Z2Nat.id by lia.
Qed.

Lemma zrange_0 n : n <= 0 -> zrange n = [].
Proof. intros H. unfold zrange. now replace (Z.to_nat n) with 0%nat by lia. Qed.

Lemma zrange_nth n k : (k < Z.to_nat n)%nat -> nth_error (zrange n) k = Some (Z.of_nat k).
Proof.
  intros H. unfold zrange.
  rewrite (nth_error_nth' _ 0) by (rewrite map_length, seq_length; exact H).
  rewrite (map_nth Z.of_nat _ 0%nat). now rewrite seq_nth by exact H.
Qed.

Lemma zrange_NoDup n : NoDup (zrange n).
Proof.
  unfold zrange. apply FinFun.Injective_map_NoDup.
  - intros a b H. lia.
  - apply seq_NoDup.
Qed.

Lemma nth_error_ext {A} (l l' : list A) :
  (forall k, nth_error l k = nth_error l' k) -> l = l'.
Proof.
  revert l'; induction l as [|a l IH]; intros [|b l'] H; auto.
  - specialize (H 0%nat); discriminate.
  - specialize (H 0%nat); discriminate.
  - f_equal.
    + specialize (H 0%nat); simpl in H; congruence.
    + apply IH; intros k; exact (H (S k)).
Qed.

Lemma skipn_skipn' {A} (x y : nat) (l : list A) : skipn x (skipn y l) = skipn (x + y) l.
Proof.
  revert l; induction y as [|y IH]; intros l.
  - now rewrite Nat.add_0_r.
  - rewrite Nat.add_succ_r. destruct l as [|a l]; [now rewrite !skipn_nil|].
    simpl. apply IH.
Qed.
