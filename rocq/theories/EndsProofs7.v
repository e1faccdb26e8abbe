(** Every run ends: the filters, the spelling and the assembly of the text. *)
From Verif Require Import Base BaseProofs SortModel ImageModel BoxModel StratModel ZoneModel DatasModel StreamModel DatasIoModel DictIoModel UtfModel TrieModel UtilModel IndexModel SpellModel FloatModel RecogModel
  GlyphsModel FilterModel ExtractModel AssembleModel Ocr6Model EndsSpec EndsProofs EndsProofs2 EndsProofs3.
From Coq Require Import Sorted.

(** * The filters *)
Lemma ends_infos_get infos w : ends (infos_get infos w).
Proof. unfold infos_get. ends_auto. Qed.
Lemma ends_contradicts infos field y l v : ends (contradicts infos field y l v).
Proof. unfold contradicts. ends_auto. apply ends_infos_get. Qed.
Lemma split_run_length w l : (List.length (snd (split_run w l)) <= List.length l)%nat.
Proof. induction l as [|v l IH]; cbn [split_run]; [cbn; lia|]. destruct (ov_word v =? w); [|cbn [snd List.length]; lia]. destruct (split_run w l) as (a & b). cbn [snd List.length] in *. lia. Qed.
Section Line.
Context (pred : oview -> res bool) (Hp : forall v, ends (pred v)).
Lemma ends_skip_runs fuel : forall out rest n, (List.length rest < fuel)%nat -> ends (skip_runs fuel pred out rest n).
Proof.
  induction fuel as [|f IH]; intros out rest n Hf; [lia|]. cbn [skip_runs]. destruct rest as [|v l]; [discriminate|]. pose proof (split_run_length (ov_word v) l) as L.
  destruct (split_run (ov_word v) l) as (run & rest'). cbn [snd List.length] in *. destruct rest' as [|w r]; [discriminate|]. apply ends_bind; [apply Hp|]. intros b _. destruct b; [discriminate|]. apply IH. lia.
Qed.
Lemma skip_runs_rest fuel : forall out rest n o r c, skip_runs fuel pred out rest n = Ok (o, r, c) -> (List.length r <= List.length rest)%nat.
Proof.
  induction fuel as [|f IH]; intros out rest n o r c; [discriminate|]. cbn [skip_runs]. destruct rest as [|v l]; [discriminate|]. pose proof (split_run_length (ov_word v) l) as L.
  destruct (split_run (ov_word v) l) as (run & rest'). cbn [snd List.length] in *. destruct rest' as [|w r']; [intros E; injection E as _ <- _; cbn; lia|]. intros E. apply bind_Ok in E as (b & _ & E). destruct b.
  - injection E as _ <- _. lia.
  - apply IH in E. lia.
Qed.
Lemma ends_keep_runs fuel : forall out rest n, (List.length rest < fuel)%nat -> ends (keep_runs fuel pred out rest n).
Proof.
  induction fuel as [|f IH]; intros out rest n Hf; [lia|]. cbn [keep_runs]. destruct rest as [|v l]; [discriminate|]. pose proof (split_run_length (ov_word v) l) as L.
  destruct (split_run (ov_word v) l) as (run & rest'). cbn [snd List.length] in *. apply ends_bind; [apply Hp|]. intros b _. destruct b; apply IH; lia.
Qed.
Lemma ends_filter_line vec : ends (filter_line pred vec).
Proof.
  unfold filter_line. destruct vec as [|v l]; [discriminate|]. pose proof (split_run_length (ov_word v) l) as L. destruct (split_run (ov_word v) l) as (run & rest). cbn [snd] in L.
  destruct rest as [|w r]; [discriminate|]. set (rest := w :: r) in *. clearbody rest. apply ends_bind; [apply Hp|]. intros b _. destruct b; [apply ends_keep_runs; cbn [List.length]; lia|].
  apply ends_bind; [apply ends_skip_runs; cbn [List.length]; lia|]. intros ((o & r2) & c) E. apply skip_runs_rest in E. apply ends_keep_runs. cbn [List.length]. lia.
Qed.
End Line.
Lemma ends_incr ys i : ends (incr ys i).
Proof. unfold incr. ends_auto. Qed.
Lemma ends_count_bottoms boxes : forall ys mb, ends (count_bottoms ys mb boxes).
Proof. induction boxes as [|b boxes IH]; intros ys mb; cbn [count_bottoms]; ends_auto; [apply ends_incr|apply IH]. Qed.
Lemma ends_filter_baseline infos bl mt amb : forall st boxes ys has, ends (filter_baseline infos bl mt st amb boxes ys has).
Proof.
  induction amb as [|r amb IH]; intros st boxes ys has; cbn [filter_baseline]; ends_auto; first [apply ends_filter_line; intros v; apply ends_contradicts|apply ends_infos_get|apply ends_incr|apply IH].
Qed.
Lemma ends_filter_meanline infos ml amb : forall st boxes, ends (filter_meanline infos ml st amb boxes).
Proof. induction amb as [|r amb IH]; intros st boxes; cbn [filter_meanline]; ends_auto; first [apply ends_filter_line; intros v; apply ends_contradicts|apply IH]. Qed.
Lemma ends_filter_by_lines infos st amb boxes : ends (filter_by_lines infos st amb boxes).
Proof. unfold filter_by_lines. ends_auto; first [apply ends_count_bottoms|apply ends_filter_baseline|apply ends_filter_meanline]. Qed.
Lemma ends_count_fonts st amb : forall m, ends (count_fonts st amb m).
Proof. induction amb as [|r amb IH]; intros m; cbn [count_fonts]; ends_auto. all: apply IH. Qed.
Lemma ends_keep_fonts font amb : forall st, ends (keep_fonts font st amb).
Proof. induction amb as [|r amb IH]; intros st; cbn [keep_fonts]; ends_auto. apply IH. Qed.
Lemma ends_filter_by_font st amb : ends (filter_by_font st amb).
Proof. unfold filter_by_font. ends_auto; first [apply ends_count_fonts|apply ends_keep_fonts]. Qed.

(** * The spelling *)
Lemma ends_utf8_next mem p : ends (utf8_next mem p).
Proof. unfold utf8_next. ends_auto. Qed.
Lemma utf8_next_goes mem p c q : utf8_next mem p = Ok (c, q) -> 0 <= p < vsize mem /\ p < q.
Proof.
  unfold utf8_next. intros H. apply bind_Ok in H as (b & E & H). apply rd_Ok in E. split; [exact E|].
  repeat match type of H with
  | context [if ?x then _ else _] => destruct x
  | bind _ _ = _ => let y := fresh in apply bind_Ok in H as (y & _ & H)
  end; injection H as _ <-; lia.
Qed.
Lemma ends_utf_char nodes last next : (forall lo hi out, ends (next lo hi out)) -> forall fuel mem c p lo hi out, 0 < Z.of_nat fuel -> vsize mem - p < Z.of_nat fuel ->
  ends (utf_char nodes last next fuel mem c p lo hi out).
Proof.
  intros Hn. induction fuel as [|f IH]; intros mem c p lo hi out H0 Hf; [lia|]. cbn [utf_char]. unfold range_lower_bound. apply ends_bind; [ends_auto|]. intros pos _.
  destruct (pos =? hi); [discriminate|]. apply ends_bind; [apply ends_rd|]. intros e _. destruct (fn_char e =? c); [|discriminate]. destruct last; [destruct (fn_term e); discriminate|].
  destruct (fn_count e =? 0); [discriminate|]. apply ends_bind; [apply ends_utf8_next|]. intros (c' & p') E. apply utf8_next_goes in E. destruct (child_range pos e) as (lo' & hi').
  apply ends_bind; [|intros (b & o) _; destruct b; discriminate]. destruct (c' =? 0); [apply Hn|]. apply IH; lia.
Qed.
Lemma ends_try_all one cs : (forall s out, ends (one s out)) -> forall out, ends (try_all one cs out).
Proof. intros H1. induction cs as [|s cs IH]; intros out; cbn [try_all]; ends_auto; [apply H1|apply IH]. Qed.
Lemma ends_disambiguous_impl nodes ps : forall lo hi out, ends (disambiguous_impl nodes lo hi ps out).
Proof.
  induction ps as [|cs ps IH]; intros lo hi out; cbn [disambiguous_impl]; [discriminate|]. apply ends_try_all. intros s o. apply ends_bind; [apply ends_utf8_next|]. intros (c & p) E.
  apply utf8_next_goes in E. apply ends_utf_char; [intros; apply IH|lia|]. unfold c_str, vsize in *. rewrite app_length in *. cbn [List.length] in *. lia.
Qed.
Lemma ends_disambiguous dict ps out : ends (disambiguous dict ps out).
Proof. unfold disambiguous, root_range, swap_tail. ends_auto. apply ends_disambiguous_impl. Qed.

(** * The assembly of ocr2_extract_text *)
Lemma ends_byte mem p : ends (byte mem p).
Proof. unfold byte. ends_auto. Qed.
Lemma ends_word_size g i : ends (word_size g i).
Proof. unfold word_size. ends_auto; apply ends_byte. Qed.
Lemma ends_word_text g i : ends (word_text g i).
Proof. unfold word_text. ends_auto; [apply ends_word_size|apply ends_byte]. Qed.
Lemma ends_search_fn g l : ends (search_fn g l).
Proof. unfold search_fn. ends_auto. apply ends_word_text. Qed.
Lemma ends_append_front g r l : ends (append_front g r l).
Proof. unfold append_front. ends_auto. apply ends_word_text. Qed.
Lemma ends_candidates g l : ends (candidates g l).
Proof. unfold candidates. ends_auto. apply ends_word_text. Qed.

Section Assemble.
Context (g : glyphs_table) (dict : list fnode) (st : list (list oview)) (amb spaces : list Z).
Lemma ends_list_of i : ends (list_of st amb i).
Proof. unfold list_of. ends_auto. Qed.
Lemma list_of_Ok i l : list_of st amb i = Ok l -> 0 <= i < vsize amb.
Proof. unfold list_of. intros H. apply bind_Ok in H as (r & E & _). now apply rd_Ok in E. Qed.
Lemma ends_find_mark want e : forall fuel i, 0 < Z.of_nat fuel -> vsize amb - i < Z.of_nat fuel -> ends (find_mark g st amb fuel want i e).
Proof.
  induction fuel as [|f IH]; intros i H0 Hf; [lia|]. cbn [find_mark]. destruct (i =? e); [discriminate|]. apply ends_bind; [apply ends_list_of|]. intros l E. apply list_of_Ok in E.
  apply ends_bind; [apply ends_search_fn|]. intros b _. destruct (Bool.eqb b want); [discriminate|]. apply IH; lia.
Qed.
Lemma find_mark_Ok want e : forall fuel i r, i <= e -> find_mark g st amb fuel want i e = Ok r -> i <= r <= e /\ (r < e -> exists l, list_of st amb r = Ok l /\ search_fn g l = Ok want).
Proof.
  induction fuel as [|f IH]; intros i r Hi; [discriminate|]. cbn [find_mark]. destruct (Z.eqb_spec i e); [intros E; injection E as <-; lia|]. intros H. apply bind_Ok in H as (l & El & H).
  apply bind_Ok in H as (b & Eb & H). destruct (Bool.eqb b want) eqn:B.
  - apply Bool.eqb_prop in B as ->. injection H as <-. split; [lia|]. intros _. exists l. auto.
  - apply IH in H; [|lia]. split; [lia|apply H].
Qed.
Lemma ends_append_all e : forall fuel i out, 0 < Z.of_nat fuel -> vsize amb - i < Z.of_nat fuel -> ends (append_all g st amb fuel i e out).
Proof.
  induction fuel as [|f IH]; intros i out H0 Hf; [lia|]. cbn [append_all]. destruct (i =? e); [discriminate|]. apply ends_bind; [apply ends_list_of|]. intros l E. apply list_of_Ok in E.
  apply ends_bind; [apply ends_append_front|]. intros r _. apply IH; lia.
Qed.
Lemma ends_positions_of e : forall fuel i, 0 < Z.of_nat fuel -> vsize amb - i < Z.of_nat fuel -> ends (positions_of g st amb fuel i e).
Proof.
  induction fuel as [|f IH]; intros i H0 Hf; [lia|]. cbn [positions_of]. destruct (i =? e); [discriminate|]. apply ends_bind; [apply ends_list_of|]. intros l E. apply list_of_Ok in E.
  apply ends_bind; [apply ends_candidates|]. intros c _. apply ends_bind; [apply IH; lia|]. discriminate.
Qed.
Lemma ends_append_marks e : forall fuel i out n, 0 < Z.of_nat fuel -> vsize amb - i < Z.of_nat fuel -> ends (append_marks g st amb fuel i e out n).
Proof.
  induction fuel as [|f IH]; intros i out n H0 Hf; [lia|]. cbn [append_marks]. destruct (i =? e); [discriminate|]. apply ends_bind; [apply ends_list_of|]. intros l E. apply list_of_Ok in E.
  destruct l as [|v l]; [apply IH; lia|]. apply ends_bind; [apply ends_search_fn|]. intros b _. destruct b; [|discriminate]. apply ends_bind; [apply ends_append_front|]. intros r _. apply IH; lia.
Qed.
Lemma append_marks_range e : forall fuel i out n r o c, i <= e -> append_marks g st amb fuel i e out n = Ok (r, o, c) -> i <= r <= e /\
  (i < e -> forall l, list_of st amb i = Ok l -> search_fn g l = Ok true -> i < r).
Proof.
  induction fuel as [|f IH]; intros i out n r o c Hi; [discriminate|]. cbn [append_marks]. destruct (Z.eqb_spec i e); [intros E; injection E as <- _ _; split; [lia|intros; lia]|]. intros H.
  apply bind_Ok in H as (l & El & H). destruct l as [|v l].
  - apply IH in H as (H & _); [|lia]. split; [lia|]. intros; lia.
  - apply bind_Ok in H as (b & Eb & H). destruct b.
    + apply bind_Ok in H as (r2 & _ & H). apply IH in H as (H & _); [|lia]. split; [lia|]. intros; lia.
    + injection H as <- _ _. split; [lia|]. intros _ l2 E2 E3. rewrite El in E2. injection E2 as <-. congruence.
Qed.

Hypothesis (Hsp : forall k e, rd spaces k = Ok e -> 0 <= e <= vsize amb /\ (e = vsize amb \/ exists e', rd spaces (k + 1) = Ok e' /\ e < e')).
Lemma break_Ok k e : break_at amb spaces k = Ok e -> rd spaces k = Ok e.
Proof. unfold break_at. intros H. apply bind_Ok in H as (x & E & H). destruct (x <=? vsize amb); [|discriminate]. injection H as <-. exact E. Qed.
Lemma ends_assemble : ends (assemble g dict st amb spaces).
Proof.
  unfold assemble. cbv zeta. apply ends_bind; [unfold break_at; ends_auto|]. intros e0 E0. apply break_Ok in E0. pose proof (Hsp _ _ E0) as (R0 & N0).
  apply ends_bind; [apply ends_find_mark; unfold vsize in *; lia|]. intros m0 M0. apply find_mark_Ok in M0 as (M0 & _); [|lia].
  apply ends_bind; [apply ends_append_all; unfold vsize in *; lia|]. intros res0 _.
  apply (ends_loop (fun '(first, k, _, _) => 0 <= first <= vsize amb /\ (first = vsize amb \/ exists e, rd spaces k = Ok e /\ first < e <= vsize amb)) (fun '(first, _, _, _) => Z.to_nat (vsize amb - first))).
  - intros (((first & k) & out) & n) (Hf & Hk). destruct (first =? vsize amb); [discriminate|].
    apply ends_bind; [unfold break_at; ends_auto|]. intros e E. apply break_Ok in E. pose proof (Hsp _ _ E) as (Re & _).
    apply ends_bind; [apply ends_find_mark; unfold vsize in *; lia|]. intros mid M. assert (Hm : 0 <= mid).
    { destruct Hk as [Hk|(e2 & Ek & Hk)]; [|rewrite E in Ek; injection Ek as <-; apply find_mark_Ok in M; lia].
      destruct (Z.le_gt_cases first e) as [L|L]; [apply find_mark_Ok in M; lia|]. cbn [find_mark] in M. destruct (Z.eqb_spec first e); [lia|]. apply bind_Ok in M as (l & El & _). apply list_of_Ok in El. lia. }
    apply ends_bind; [apply ends_positions_of; unfold vsize in *; lia|]. intros ps _. apply ends_bind; [apply ends_disambiguous|]. intros (b & o) _.
    apply ends_bind; [destruct b; [discriminate|apply ends_append_all; unfold vsize in *; lia]|]. intros o2 _. apply ends_bind; [apply ends_append_marks; unfold vsize in *; lia|]. intros ((m2 & o3) & n2) _.
    destruct (_ && _); discriminate.
  - intros (((first & k) & out) & n) (((f2 & k2) & out2) & n2) (Hf & Hk). destruct (Z.eqb_spec first (vsize amb)) as [F|F]; [discriminate|]. destruct Hk as [Hk|(e & E & Hk)]; [contradiction|].
    intros H. apply bind_Ok in H as (e' & E' & H). apply break_Ok in E'. rewrite E in E'. injection E' as <-. apply bind_Ok in H as (mid & M & H). apply find_mark_Ok in M as (M & M2); [|lia].
    apply bind_Ok in H as (ps & _ & H). apply bind_Ok in H as ((b & o) & _ & H). apply bind_Ok in H as (o2 & _ & H). apply bind_Ok in H as (((m2 & o3) & n3) & A & H).
    apply append_marks_range in A as (A & A2); [|lia].
    assert (G : first < m2 <= e).
    { split; [|lia]. destruct (Z.eq_dec mid e) as [-> |]; [lia|]. destruct (M2 ltac:(lia)) as (l & El & Es). specialize (A2 ltac:(lia) l El Es). lia. }
    pose proof (Hsp _ _ E) as (Re & Ne). destruct (Z.eqb_spec m2 e) as [Em|Em]; cbn [andb] in H.
    + destruct (Z.eqb_spec e (vsize amb)) as [Ev|Ev]; cbn [negb] in H; injection H as <- <- _ _; subst m2.
      * split; [|lia]. split; [lia|]. left. exact Ev.
      * split; [|lia]. split; [lia|]. right. destruct Ne as [Ne|(e2 & E2 & L2)]; [contradiction|]. exists e2. split; [exact E2|]. destruct (Hsp _ _ E2). lia.
    + injection H as <- <- _ _. split; [|lia]. split; [lia|]. right. exists e. split; [exact E|lia].
  - split; [lia|]. destruct (Z.eqb_spec m0 e0) as [Em|Em].
    + subst m0. destruct N0 as [N0|(e2 & E2 & L2)]; [now left|]. right. exists e2. split; [exact E2|]. destruct (Hsp _ _ E2). lia.
    + right. exists e0. split; [exact E0|lia].
  - unfold vsize. lia.
Qed.
End Assemble.

(** The breaks of a line. *)
Lemma sorted_next l : StronglySorted Z.lt l -> forall k a b, nth_error l k = Some a -> nth_error l (S k) = Some b -> a < b.
Proof.
  induction 1 as [|x l H IH F]; intros k a b; [destruct k; discriminate|]. destruct k as [|k].
  - cbn [nth_error]. intros E1 E2. injection E1 as <-. rewrite Forall_forall in F. apply F. destruct l as [|y l]; [discriminate|]. injection E2 as <-. now left.
  - intros E1 E2. exact (IH k a b E1 E2).
Qed.
Lemma sorted_snoc l n : StronglySorted Z.lt l -> Forall (fun e => e < n) l -> StronglySorted Z.lt (l ++ [n]).
Proof.
  induction 1 as [|x l H IH F]; intros G; cbn [app]; [repeat constructor|]. inversion G as [|? ? G1 G2]; subst. constructor; [now apply IH|]. rewrite Forall_app. split; [exact F|]. repeat constructor. exact G1.
Qed.
Lemma breaks_next l n : StronglySorted Z.lt l -> Forall (fun e => 0 <= e < n) l -> 0 <= n -> forall k e, rd (l ++ [n]) k = Ok e ->
  0 <= e <= n /\ (e = n \/ exists e', rd (l ++ [n]) (k + 1) = Ok e' /\ e < e').
Proof.
  intros S F N k e E. pose proof E as E1. apply rd_inv in E1 as (K & E1). assert (In e (l ++ [n])) as Hin by (eapply nth_error_In; eauto).
  assert (0 <= e <= n).
  { apply in_app_or in Hin as [Hin|[<-|[]]]; [|lia]. rewrite Forall_forall in F. apply F in Hin. lia. }
  split; [assumption|]. destruct (Nat.lt_ge_cases (Z.to_nat k) (List.length l)) as [L|L].
  - right. assert (exists e', nth_error (l ++ [n]) (Datatypes.S (Z.to_nat k)) = Some e') as (e' & E').
    { destruct (nth_error (l ++ [n]) (Datatypes.S (Z.to_nat k))) eqn:X; [eauto|]. apply nth_error_None in X. rewrite app_length in X. cbn in X. lia. }
    exists e'. split.
    + unfold rd. destruct (Z.ltb_spec (k + 1) 0); [lia|]. replace (Z.to_nat (k + 1)) with (Datatypes.S (Z.to_nat k)) by lia. now rewrite E'.
    + refine (sorted_next (l ++ [n]) _ _ _ _ E1 E'). apply sorted_snoc; [exact S|]. eapply Forall_impl; [|exact F]. cbn. lia.
  - left. rewrite nth_error_app2 in E1 by lia. destruct (Z.to_nat k - List.length l)%nat as [|j]; [injection E1 as ->; reflexivity|]. destruct j; discriminate.
Qed.

(** * The assembly of extract_text6 *)
Lemma split_at_rest {A} (p : A -> bool) l : match snd (split_at p l) with [] => True | a :: _ => p a = true end /\ (List.length (snd (split_at p l)) <= List.length l)%nat.
Proof.
  induction l as [|a l IH]; cbn [split_at]; [cbn; lia|]. destruct (p a) eqn:E; [cbn [snd]; split; [exact E|lia]|]. destruct (split_at p l) as (x & y). cbn [snd List.length] in *. split; [apply IH|lia].
Qed.
Lemma split_at_goes {A} (p : A -> bool) a l : p a = false -> (List.length (snd (split_at p (a :: l))) <= List.length l)%nat.
Proof. intros E. cbn [split_at]. rewrite E. pose proof (split_at_rest p l) as (_ & H). destruct (split_at p l) as (x & y). exact H. Qed.
Lemma ends_assemble6 dict amb : ends (assemble6 dict amb).
Proof.
  unfold assemble6. apply (ends_loop (fun '(l, _) => match l with [] => True | a :: _ => separator6 a = false end) (fun '(l, _) => List.length l)).
  - intros (l & out) _. destruct l as [|a l]; [discriminate|]. destruct (split_at separator6 (a :: l)) as (word & rest). apply ends_bind; [apply ends_disambiguous|]. intros (b & o) _.
    destruct (split_at (fun e => negb (separator6 e)) rest); destruct b; discriminate.
  - intros (l & out) (l2 & out2) Hl. destruct l as [|a l]; [discriminate|]. pose proof (split_at_goes separator6 a l Hl) as L. destruct (split_at separator6 (a :: l)) as (word & rest).
    cbn [snd] in L. intros H. apply bind_Ok in H as ((b & o) & _ & H). pose proof (split_at_rest (fun e => negb (separator6 e)) rest) as (P & L2).
    destruct (split_at (fun e => negb (separator6 e)) rest) as (seps & rest2). cbn [snd] in *.
    assert (l2 = rest2) as -> by (destruct b; injection H as <- _; reflexivity). split; [|cbn [List.length]; lia]. destruct rest2; [exact I|]. now apply Bool.negb_true_iff in P.
  - pose proof (split_at_rest (fun e => negb (separator6 e)) amb) as (P & _). destruct (snd _); [exact I|]. now apply Bool.negb_true_iff in P.
  - pose proof (split_at_rest (fun e => negb (separator6 e)) amb) as (_ & L). lia.
Qed.
