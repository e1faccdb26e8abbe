(** Sorting, keeping one row by class, and listing the labels. *)
From Verif Require Import Base BaseProofs SortModel SortProofs IndexModel FloatModel FloatSpec FloatProofs RecogModel.
From Coq Require Import SpecFloat Permutation Sorted.

Section rank.
Context (ids : list Z).

Definition unit_ps (ps : list prob) : Prop := forall p, In p ps -> unit_double (pr_p p).

Lemma gt_prob_strict_weak ps : unit_ps ps -> strict_weak gt_prob ps.
Proof.
  intros U. unfold gt_prob. split; [|split].
  - intros a Ha. rewrite dlt_key by auto. lia.
  - intros a b c Ha Hb Hc. rewrite !dlt_key by auto. lia.
  - intros a b c Ha Hb Hc. rewrite !dlt_key by auto. lia.
Qed.
Lemma lt_by_views_strict_weak ps : unit_ps ps -> strict_weak (lt_by_views ids) ps.
Proof.
  intros U. unfold lt_by_views. split; [|split].
  - intros a Ha. rewrite Z.eqb_refl, dlt_key by auto. lia.
  - intros a b c Ha Hb Hc. rewrite !dlt_key by auto.
    destruct (Z.eqb_spec (id_at ids a) (id_at ids b)), (Z.eqb_spec (id_at ids b) (id_at ids c)),
      (Z.eqb_spec (id_at ids a) (id_at ids c)); lia.
  - intros a b c Ha Hb Hc. rewrite !dlt_key by auto.
    destruct (Z.eqb_spec (id_at ids a) (id_at ids b)), (Z.eqb_spec (id_at ids b) (id_at ids c)),
      (Z.eqb_spec (id_at ids a) (id_at ids c)); lia.
Qed.

Lemma ids_ok_iff ps : ids_ok ids ps = true <-> forall p, In p ps -> 0 <= pr_i p < Z.of_nat (List.length ids).
Proof.
  unfold ids_ok. rewrite forallb_forall. split; intros H p Hp; specialize (H p Hp); rewrite ?andb_true_iff in *; lia.
Qed.
Lemma ids_ok_perm ps ps' : Permutation ps ps' -> ids_ok ids ps = true -> ids_ok ids ps' = true.
Proof. intros P. rewrite !ids_ok_iff. intros H p Hp. apply H. now apply (Permutation_in _ (Permutation_sym P)). Qed.

(** The first of each class of a list sorted by class. *)
Definition best_in (ps : list prob) (p : prob) : Prop :=
  forall q, In q ps -> id_at ids q = id_at ids p -> dle (pr_p q) (pr_p p) = true.

Lemma dle_refl x : unit_double x -> dle x x = true.
Proof. intros. rewrite dle_key by auto. lia. Qed.

Lemma unique_from_ok : forall ps p,
  unit_ps (p :: ps) -> sorted_by (lt_by_views ids) (p :: ps) ->
  let u := unique_from ids p ps in
  (forall q, In q u -> In q ps /\ id_at ids p < id_at ids q) /\
  StronglySorted (fun a b => id_at ids a < id_at ids b) (p :: u) /\
  (forall q, In q ps -> exists r, In r (p :: u) /\ id_at ids r = id_at ids q) /\
  (forall r, In r (p :: u) -> best_in (p :: ps) r).
Proof.
  induction ps as [|q ps IH]; intros p U S; cbn [unique_from]; cbv zeta.
  - split; [intros q []|]. split; [repeat constructor|]. split; [intros q []|].
    intros r [<-|[]] q [<-|[]] _. apply dle_refl. apply U. now left.
  - inversion S as [|? ? S' F]; subst. inversion F as [|? ? Fq F']; subst.
    assert (Up : unit_double (pr_p p)) by (apply U; now left).
    assert (Uq : unit_double (pr_p q)) by (apply U; right; now left).
    assert (U' : unit_ps (q :: ps)) by (intros r Hr; apply U; now right).
    assert (U'' : unit_ps (p :: ps)) by (intros r [Hr|Hr]; apply U; [now left|right; now right]).
    unfold lt_by_views in Fq. rewrite Z.eqb_sym in Fq. unfold eq_by_views.
    destruct (Z.eqb_spec (id_at ids p) (id_at ids q)) as [E|E].
    + assert (S'' : sorted_by (lt_by_views ids) (p :: ps)).
      { inversion S'; subst. constructor; [assumption|exact F']. }
      destruct (IH p U'' S'') as (I1 & I2 & I3 & I4). split; [|split; [|split]].
      * intros r Hr. destruct (I1 r Hr). split; [now right|assumption].
      * exact I2.
      * intros r [<-|Hr]; [exists p; split; [now left|exact E]|auto].
      * intros r Hr s [<-|[<-|Hs]] Es.
        -- apply (I4 r Hr p); [now left|exact Es].
        -- assert (Er : id_at ids r = id_at ids p) by congruence.
           destruct Hr as [<-|Hr].
           ++ rewrite dle_key by auto. rewrite dlt_key in Fq by auto. lia.
           ++ destruct (I1 r Hr). lia.
        -- apply (I4 r Hr s); [now right|exact Es].
    + assert (L : id_at ids p < id_at ids q) by lia.
      destruct (IH q U' S') as (I1 & I2 & I3 & I4).
      assert (Lp : forall r, In r (q :: unique_from ids q ps) -> id_at ids p < id_at ids r).
      { intros r [<-|Hr]; [exact L|]. destruct (I1 r Hr). lia. }
      assert (Lps : forall r, In r (q :: ps) -> id_at ids p < id_at ids r).
      { intros r Hr. destruct Hr as [<-|Hr]; [exact L|].
        destruct (I3 r Hr) as (r' & Hr' & Er'). rewrite <- Er'. now apply Lp. }
      split; [|split; [|split]].
      * intros r [<-|Hr]; [split; [now left|exact L]|]. destruct (I1 r Hr). split; [now right|lia].
      * constructor; [exact I2|]. apply Forall_forall. exact Lp.
      * intros r [<-|Hr]; [exists q; split; [right; now left|reflexivity]|].
        destruct (I3 r Hr) as (r' & Hr' & Er'). exists r'. split; [now right|exact Er'].
      * intros r Hr s Hs Es. destruct Hr as [<-|Hr].
        -- destruct Hs as [<-|Hs]; [now apply dle_refl|]. apply Lps in Hs. lia.
        -- destruct Hs as [<-|Hs]; [apply Lp in Hr; lia|]. exact (I4 r Hr s Hs Es).
Qed.

(** The rows kept, one by class. *)
Definition representatives (ps u : list prob) : Prop :=
  (forall p, In p u -> In p ps) /\ NoDup (map (id_at ids) u) /\
  (forall p, In p u -> best_in ps p) /\ (forall q, In q ps -> exists p, In p u /\ id_at ids p = id_at ids q).

Lemma unique_ok ps : unit_ps ps -> ids_ok ids ps = true -> sorted_by (lt_by_views ids) ps ->
  exists u, unique_by_views ids ps = Ok u /\ representatives ps u.
Proof.
  intros U I S. unfold unique_by_views. rewrite I. eexists. split; [reflexivity|]. destruct ps as [|p ps].
  - split; [intros p []|]. split; [constructor|]. split; intros p [].
  - destruct (unique_from_ok ps p U S) as (I1 & I2 & I3 & I4). split; [|split; [|split]].
    + intros q [<-|Hq]; [now left|]. right. now apply I1.
    + clear -I2. set (l := p :: unique_from ids p ps) in *. clearbody l. induction I2 as [|a l S IH F]; cbn [map]; constructor; [|exact IH].
      intros H. apply in_map_iff in H as (b & Eb & Hb). rewrite Forall_forall in F. specialize (F b Hb). lia.
    + exact I4.
    + intros q [<-|Hq]; [exists p; split; [now left|reflexivity]|auto].
Qed.

Lemma representatives_perm ps ps' u u' : Permutation ps ps' -> Permutation u u' ->
  representatives ps u -> representatives ps' u'.
Proof.
  intros P Q (R1 & R2 & R3 & R4). split; [|split; [|split]].
  - intros p Hp. apply (Permutation_in _ P), R1, (Permutation_in _ (Permutation_sym Q)), Hp.
  - apply (Permutation_NoDup (Permutation_map _ Q) R2).
  - intros p Hp q Hq. apply (R3 p (Permutation_in _ (Permutation_sym Q) Hp)). apply (Permutation_in _ (Permutation_sym P) Hq).
  - intros q Hq. destruct (R4 q (Permutation_in _ (Permutation_sym P) Hq)) as (p & Hp & E).
    exists p. split; [apply (Permutation_in _ Q Hp)|exact E].
Qed.

(** sort_by_views, unique_by_views and sort_by_prop. *)
Lemma ranked_ok sortv sortp ps : is_std_sort (lt_by_views ids) sortv -> is_std_sort gt_prob sortp ->
  unit_ps ps -> ids_ok ids ps = true ->
  let ps' := sortv ps in
  Permutation ps ps' /\ ids_ok ids ps' = true /\ unit_ps ps' /\
  exists u, unique_by_views ids ps' = Ok u /\ representatives ps (sortp u) /\ unit_ps (sortp u) /\
    StronglySorted (fun p q => dle (pr_p q) (pr_p p) = true) (sortp u).
Proof.
  intros Hv Hp U I ps'. destruct (Hv ps (lt_by_views_strict_weak ps U)) as (P & S). fold ps' in P, S.
  assert (I' : ids_ok ids ps' = true) by exact (ids_ok_perm _ _ P I).
  assert (U' : unit_ps ps') by (intros p H; apply U, (Permutation_in _ (Permutation_sym P)), H).
  split; [exact P|]. split; [exact I'|]. split; [exact U'|].
  destruct (unique_ok ps' U' I' S) as (u & E & R). exists u. split; [exact E|].
  assert (Uu : unit_ps u) by (intros p H; apply U'; now apply R).
  destruct (Hp u (gt_prob_strict_weak u Uu)) as (Q & Su).
  split; [apply (representatives_perm ps' ps u _ (Permutation_sym P) Q R)|].
  assert (Us : unit_ps (sortp u)) by (intros p H; apply Uu, (Permutation_in _ (Permutation_sym Q)), H).
  split; [exact Us|]. unfold sorted_by, gt_prob in Su. clear -Su Us.
  set (l := sortp u) in *. clearbody l. induction Su as [|a l S IH F]; [constructor|]. constructor.
  - apply IH. intros p Hp. apply Us. now right.
  - rewrite Forall_forall in *. intros b Hb. specialize (F b Hb). cbn beta in F.
    rewrite dlt_key in F by (apply Us; cbn; auto). rewrite dle_key by (apply Us; cbn; auto). lia.
Qed.

(** The labels of the rows above the limit. *)
Lemma insert_views_ok glyphs limit u : unit_double limit -> unit_ps u ->
  (forall p, In p u -> 0 <= pr_i p < Z.of_nat (List.length glyphs)) ->
  StronglySorted (fun p q => dle (pr_p q) (pr_p p) = true) u ->
  insert_views glyphs limit u =
    Ok (flat_map (fun p => nth (Z.to_nat (pr_i p)) glyphs []) (filter (fun p => dle limit (pr_p p)) u)).
Proof.
  intros HL. induction u as [|p u IH]; intros U I S; cbn [insert_views filter]; [reflexivity|].
  inversion S as [|? ? S' F]; subst.
  destruct (dle limit (pr_p p)) eqn:E.
  - rewrite (rd_nth [] glyphs (pr_i p)) by (apply I; now left). cbn [bind].
    rewrite IH; [|intros q Hq; apply U; now right|intros q Hq; apply I; now right|exact S'].
    reflexivity.
  - assert (N : filter (fun q => dle limit (pr_p q)) u = []).
    { clear IH. rewrite Forall_forall in F.
      assert (K : forall q, In q u -> dle limit (pr_p q) = false).
      { intros q Hq. specialize (F q Hq). cbn beta in F.
        rewrite dle_key in * by (try exact HL; apply U; cbn; auto). lia. }
      clear -K. induction u as [|q u IH]; [reflexivity|]. cbn [filter]. rewrite (K q) by now left.
      apply IH. intros r Hr. apply K. now right. }
    now rewrite N.
Qed.

End rank.
