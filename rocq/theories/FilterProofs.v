(** The filters of candidates. *)
From Verif Require Import Base BaseProofs ProofTools SortModel SortProofs BoxModel TrieModel TrieProofs FlatTrieProofs IndexModel
  IndexProofs GlyphsModel FilterModel FilterSpec.
From Coq Require Import Sorted Permutation.

(** * Fonts *)
Lemma list_at_rd st r : 0 <= r < vsize st -> rd st r = Ok (list_at st r).
Proof.
  intros H. apply rd_ok; [lia|]. unfold list_at, vsize in *. apply nth_error_nth'. lia.
Qed.
Lemma singles_nonneg st amb f : 0 <= singles st amb f.
Proof. induction amb as [|r amb IH]; [apply Z.le_refl|]. cbn [singles]. destruct (list_at st r) as [|v [|]]; try lia. destruct (_ =? _); lia. Qed.
Lemma singles_le st amb f : singles st amb f <= vsize amb.
Proof.
  induction amb as [|r amb IH]; [apply Z.le_refl|]. cbn [singles]. rewrite vsize_cons.
  destruct (list_at st r) as [|v [|]]; try lia. destruct (_ =? _); lia.
Qed.

Definition count_of (m : list (Z * Z)) (f : Z) : Z := match find (fun p => fst p =? f) m with Some p => snd p | None => 0 end.
Lemma count_font_keys f m : StronglySorted Z.lt (map fst m) ->
  StronglySorted Z.lt (map fst (count_font f m)) /\ forall k, In k (map fst (count_font f m)) <-> k = f \/ In k (map fst m).
Proof.
  induction m as [|[k n] m IH]; intros S.
  - split; [repeat constructor|]. intros x. cbn. intuition.
  - cbn [map fst] in S. apply StronglySorted_inv in S. destruct S as [S F]. destruct (IH S) as [IH1 IH2]. cbn [count_font].
    destruct (Z.ltb_spec f k) as [L|L].
    + cbn [map fst]. split.
      * constructor; [constructor; assumption|]. constructor; [exact L|]. rewrite Forall_forall in *. intros x Hx. specialize (F x Hx). lia.
      * intros x. cbn [In]. intuition.
    + destruct (Z.eqb_spec f k) as [E|E].
      * subst k. cbn [map fst]. split; [constructor; assumption|]. intros x. cbn [In]. intuition.
      * cbn [map fst]. split.
        -- constructor; [exact IH1|]. rewrite Forall_forall in *. intros x Hx. apply IH2 in Hx. destruct Hx as [->|Hx]; [lia|apply F, Hx].
        -- intros x. cbn [In]. rewrite IH2. intuition.
Qed.
Lemma count_font_value f m g : StronglySorted Z.lt (map fst m) -> (forall k, 0 <= count_of m k < 4294967295) ->
  count_of (count_font f m) g = count_of m g + (if f =? g then 1 else 0).
Proof.
  induction m as [|[k n] m IH]; intros S B.
  - unfold count_of. cbn [count_font find fst]. destruct (f =? g); reflexivity.
  - cbn [map fst] in S. apply StronglySorted_inv in S. destruct S as [S F]. cbn [count_font].
    assert (Bm : forall x, 0 <= count_of m x < 4294967295).
    { intros x. specialize (B x). unfold count_of in B. cbn [find fst] in B. destruct (Z.eqb_spec k x) as [->|E]; [|exact B].
      unfold count_of. destruct (find (fun p => fst p =? x) m) as [[y c]|] eqn:Ef; [|lia]. exfalso. apply find_some in Ef. cbn [fst] in Ef.
      destruct Ef as [Hin Ex]. apply Z.eqb_eq in Ex. subst y. rewrite Forall_forall in F. apply (in_map fst) in Hin. specialize (F _ Hin). cbn [fst] in F. lia. }
    destruct (Z.ltb_spec f k) as [L|L].
    + unfold count_of. cbn [find fst]. destruct (Z.eqb_spec f g) as [->|E].
      * cbn [snd]. destruct (Z.eqb_spec k g); [lia|]. destruct (find (fun p => fst p =? g) m) as [[y c]|] eqn:Ef; [|reflexivity].
        exfalso. apply find_some in Ef. cbn [fst] in Ef. destruct Ef as [Hin Ex]. apply Z.eqb_eq in Ex. subst y.
        rewrite Forall_forall in F. apply (in_map fst) in Hin. specialize (F _ Hin). cbn [fst] in F. lia.
      * destruct (k =? g); [lia|]. destruct (find _ m); lia.
    + destruct (Z.eqb_spec f k) as [->|E].
      * unfold count_of. cbn [find fst]. destruct (Z.eqb_spec k g) as [->|E]; [|destruct (find _ m); lia]. cbn [snd].
        specialize (B g). unfold count_of in B. cbn [find fst] in B. rewrite Z.eqb_refl in B. cbn [snd] in B. rewrite u32_small by lia. reflexivity.
      * specialize (IH S Bm). unfold count_of in *. cbn [find fst]. destruct (Z.eqb_spec k g) as [->|E2]; [|exact IH].
        cbn [snd]. destruct (Z.eqb_spec f g); [contradiction|lia].
Qed.

Lemma count_fonts_ok st amb : forall m, valid st amb -> StronglySorted Z.lt (map fst m) ->
  (forall k, 0 <= count_of m k) -> (forall k, count_of m k + vsize amb < 4294967296) ->
  (forall k, In k (map fst m) <-> 0 < count_of m k) ->
  exists m', count_fonts st amb m = Ok m' /\ StronglySorted Z.lt (map fst m') /\
    (forall k, count_of m' k = count_of m k + singles st amb k) /\ (forall k, In k (map fst m') <-> 0 < count_of m' k).
Proof.
  induction amb as [|r amb IH]; intros m V S P B K.
  - exists m. cbn [count_fonts singles]. split; [reflexivity|]. split; [exact S|]. split; [intros; lia|exact K].
  - cbn [count_fonts]. rewrite list_at_rd by (apply V; left; reflexivity). cbn [bind].
    assert (V' : valid st amb) by (intros x Hx; apply V; right; exact Hx).
    assert (Vs : vsize (r :: amb) = 1 + vsize amb) by apply vsize_cons. pose proof (vsize_nonneg amb).
    cbn [singles]. destruct (list_at st r) as [|v [|v' l]].
    + destruct (IH m V' S P ltac:(intros k; specialize (B k); lia) K) as (m' & E & A1 & A2 & A3). exists m'. auto.
    + assert (CV : forall g, count_of (count_font (ov_font v) m) g = count_of m g + (if ov_font v =? g then 1 else 0)).
      { intros g. apply count_font_value; [exact S|]. intros k. specialize (P k). specialize (B k). lia. }
      destruct (count_font_keys (ov_font v) m S) as [S' K'].
      destruct (IH (count_font (ov_font v) m) V' S') as (m' & E & A1 & A2 & A3).
      * intros k. rewrite CV. specialize (P k). destruct (_ =? _); lia.
      * intros k. rewrite CV. specialize (B k). destruct (_ =? _); lia.
      * intros k. rewrite CV, K', K. specialize (P k). destruct (Z.eqb_spec (ov_font v) k); [intuition lia|]. intuition; try lia; congruence.
      * exists m'. split; [exact E|]. split; [exact A1|]. split; [|exact A3]. intros k. rewrite A2, CV. lia.
    + destruct (IH m V' S P ltac:(intros k; specialize (B k); lia) K) as (m' & E & A1 & A2 & A3). exists m'. auto.
Qed.

Lemma max_font_ok m : forall best, let b := max_font best m in
  (b = best \/ In b m) /\ snd best <= snd b /\ forall p, In p m -> snd p <= snd b.
Proof.
  induction m as [|p m IH]; intros best; cbn [max_font]; [split; [left; reflexivity|]; split; [lia|intros ? []]|].
  specialize (IH (if snd best <? snd p then p else best)). cbv zeta in IH |- *. destruct IH as (A & B & C).
  destruct (Z.ltb_spec (snd best) (snd p)) as [L|L].
  - split; [destruct A as [->|A]; [right; left; reflexivity|right; right; exact A]|]. split; [lia|].
    intros q [<-|Hq]; [exact B|apply C, Hq].
  - split; [destruct A as [A|A]; [left; exact A|right; right; exact A]|]. split; [exact B|].
    intros q [<-|Hq]; [lia|apply C, Hq].
Qed.

Lemma keep_font_chosen f l : chosen f l (keep_font f l).
Proof.
  unfold chosen, keep_font. destruct l as [|a [|b t]]; try reflexivity.
  set (l := a :: b :: t). destruct (find (fun v => ov_font v =? f) l) as [x|] eqn:E.
  - apply find_some in E. destruct E as [Hx Ef]. apply Z.eqb_eq in Ef. exists x. split; [reflexivity|]. split; [exact Hx|].
    split; [intros _; exact Ef|]. intros H. exfalso. exact (H x Hx Ef).
  - exists a. split; [reflexivity|]. split; [left; reflexivity|]. split; [|reflexivity].
    intros (v & Hv & Ef). exfalso. pose proof (find_none _ _ E v Hv) as H. cbn beta in H. rewrite Ef, Z.eqb_refl in H. discriminate.
Qed.
Lemma keep_font_idem f l : keep_font f (keep_font f l) = keep_font f l.
Proof. unfold keep_font. destruct l as [|a [|b t]]; reflexivity. Qed.

Lemma list_at_upd st r l : 0 <= r < vsize st ->
  list_at (upd st (Z.to_nat r) l) r = l /\ forall q, 0 <= q -> q <> r -> list_at (upd st (Z.to_nat r) l) q = list_at st q.
Proof.
  intros H. unfold list_at. split.
  - apply nth_upd_same. unfold vsize in H. lia.
  - intros q Hq Ne. apply nth_upd_other. lia.
Qed.
Lemma vsize_upd {A} (l : list A) n v : vsize (upd l n v) = vsize l.
Proof. unfold vsize. rewrite upd_length. reflexivity. Qed.

Lemma keep_fonts_ok f amb : forall st, valid st amb ->
  exists st', keep_fonts f st amb = Ok st' /\ vsize st' = vsize st /\
    forall r, 0 <= r -> (In r amb -> list_at st' r = keep_font f (list_at st r)) /\ (~ In r amb -> list_at st' r = list_at st r).
Proof.
  induction amb as [|r amb IH]; intros st V.
  - exists st. split; [reflexivity|]. split; [reflexivity|]. intros r _. split; [intros []|reflexivity].
  - assert (Hr : 0 <= r < vsize st) by (apply V; left; reflexivity). cbn [keep_fonts]. rewrite list_at_rd by exact Hr. cbn [bind].
    rewrite wr_ok by (unfold vsize in Hr; exact Hr). cbn [bind].
    destruct (list_at_upd st r (keep_font f (list_at st r)) Hr) as [U1 U2].
    destruct (IH (upd st (Z.to_nat r) (keep_font f (list_at st r)))) as (st' & E & L & A).
    + intros q Hq. rewrite vsize_upd. apply V. right. exact Hq.
    + exists st'. split; [exact E|]. split; [rewrite L; apply vsize_upd|]. intros q Hq. destruct (A q Hq) as [A1 A2].
      destruct (Z.eq_dec q r) as [->|Ne].
      * split; [|intros N; exfalso; apply N; left; reflexivity]. intros _.
        destruct (in_dec Z.eq_dec r amb) as [I|I]; [rewrite (A1 I), U1; apply keep_font_idem|rewrite (A2 I); exact U1].
      * rewrite U2 in A1, A2 by assumption. split; [intros [H|H]; [congruence|auto]|]. intros N. apply A2. intros H. apply N. right. exact H.
Qed.

Lemma filter_by_font_ok st amb : valid st amb -> vsize amb < 4294967296 ->
  exists st' f, filter_by_font st amb = Ok (st', f) /\ vsize st' = vsize st /\
    (((forall g, singles st amb g = 0) /\ f = 4294967295 /\ st' = st) \/
     (elected st amb f /\
      ((decisive st amb f /\ forall r, 0 <= r -> (In r amb -> chosen f (list_at st r) (list_at st' r)) /\
          (~ In r amb -> list_at st' r = list_at st r)) \/
       (~ decisive st amb f /\ st' = st)))).
Proof.
  intros V B. unfold filter_by_font.
  destruct (count_fonts_ok st amb [] V) as (m & E & S & C & K).
  - constructor.
  - intros k. cbn. lia.
  - intros k. cbn. exact B.
  - intros k. cbn. split; [intros []|lia].
  - change (forall k, count_of m k = 0 + singles st amb k) in C. rewrite E. cbn [bind].
    destruct m as [|p m].
    + exists st, 4294967295. split; [reflexivity|]. split; [reflexivity|]. left. split; [|auto]. intros g. rewrite <- (Z.add_0_l (singles _ _ _)), <- C. reflexivity.
    + set (M := p :: m) in *. destruct (max_font_ok m p) as (A1 & A2 & A3). set (best := max_font p m) in *.
      assert (Hb : In best M) by (destruct A1 as [->|A1]; [left; reflexivity|right; exact A1]).
      assert (Hm : forall q, In q M -> snd q <= snd best) by (intros q [<-|Hq]; [exact A2|apply A3, Hq]).
      assert (CI : forall k n, In (k, n) M -> count_of M k = n).
      { intros k n H. clear -S H. unfold count_of. induction M as [|[a c] M IH]; [destruct H|].
        cbn [map fst] in S. apply StronglySorted_inv in S. destruct S as [S F]. cbn [find fst]. destruct (Z.eqb_spec a k) as [->|Ne].
        - destruct H as [H|H]; [injection H as <-; reflexivity|]. exfalso. rewrite Forall_forall in F. apply (in_map fst) in H. specialize (F _ H). cbn [fst] in F. lia.
        - destruct H as [H|H]; [congruence|]. apply IH; assumption. }
      assert (EB : singles st amb (fst best) = snd best).
      { rewrite <- (Z.add_0_l (singles _ _ _)), <- C. apply CI. destruct best; exact Hb. }
      assert (EG : forall g, singles st amb g <= snd best).
      { intros g. destruct (Z_lt_le_dec 0 (singles st amb g)) as [L|L].
        - assert (I : In g (map fst M)) by (apply K; rewrite C; lia). apply in_map_iff in I. destruct I as ([k n] & Ek & I). cbn [fst] in Ek. subst k.
          rewrite <- (Z.add_0_l (singles _ _ _)), <- C, (CI g n I). exact (Hm _ I).
        - pose proof (singles_nonneg st amb (fst best)). lia. }
      assert (EL : elected st amb (fst best)).
      { split; [|intros g; rewrite EB; apply EG]. rewrite <- (Z.add_0_l (singles _ _ _)), <- C. apply K. apply in_map. exact Hb. }
      assert (ED : (vsize M =? 1) || (vsize amb / 2 <=? snd best) = true <-> decisive st amb (fst best)).
      { rewrite orb_true_iff, Z.eqb_eq, Z.leb_le. unfold decisive. rewrite EB.
        assert (EO : vsize M = 1 <-> forall g, 0 < singles st amb g -> g = fst best).
        { split.
          - intros L g Hg. assert (I : In g (map fst M)) by (apply K; rewrite C; lia).
            unfold M in L, I, Hb. destruct m; [|rewrite !vsize_cons in L; pose proof (vsize_nonneg m); lia].
            destruct I as [<-|[]]. destruct Hb as [<-|[]]. reflexivity.
          - intros H. unfold M. destruct m as [|q m]; [reflexivity|]. exfalso.
            assert (P1 : fst p = fst best) by (apply H; rewrite <- (Z.add_0_l (singles _ _ _)), <- C; apply K; left; reflexivity).
            assert (P2 : fst q = fst best) by (apply H; rewrite <- (Z.add_0_l (singles _ _ _)), <- C; apply K; right; left; reflexivity).
            unfold M in S. cbn [map] in S. apply StronglySorted_inv in S. destruct S as [_ F]. rewrite Forall_forall in F.
            specialize (F (fst q) (or_introl eq_refl)). lia. }
        rewrite EO. reflexivity. }
      destruct ((vsize M =? 1) || (vsize amb / 2 <=? snd best)) eqn:D.
      * destruct (keep_fonts_ok (fst best) amb st V) as (st' & -> & L & A). cbn [bind]. exists st', (fst best).
        split; [reflexivity|]. split; [exact L|]. right. split; [exact EL|]. left. split; [apply ED; reflexivity|].
        intros r Hr. destruct (A r Hr) as [P1 P2]. split; [|exact P2]. intros I. rewrite (P1 I). apply keep_font_chosen.
      * exists st, (fst best). split; [reflexivity|]. split; [reflexivity|]. right. split; [exact EL|]. right. split; [|reflexivity].
        intros X. apply ED in X. discriminate.
Qed.

(** * Lines *)
Lemma split_run_ok w l : forall a b, split_run w l = (a, b) ->
  l = a ++ b /\ (forall v, In v a -> ov_word v = w) /\ (match b with v :: _ => ov_word v <> w | [] => True end).
Proof.
  induction l as [|v l IH]; intros a b; cbn [split_run].
  - intros [= <- <-]. split; [reflexivity|]. split; [intros ? []|exact I].
  - destruct (Z.eqb_spec (ov_word v) w) as [E|E].
    + destruct (split_run w l) as [a' b'] eqn:Es. intros [= <- <-]. destruct (IH _ _ eq_refl) as (-> & A & B).
      split; [reflexivity|]. split; [intros x [<-|Hx]; [exact E|apply A, Hx]|exact B].
    + intros [= <- <-]. split; [reflexivity|]. split; [intros ? []|exact E].
Qed.

Section Lines.
Context (pred : oview -> res bool) (c : Z -> bool) (Hp : forall v, pred v = Ok (c (ov_word v))).

Lemma coherent_app a b : coherent c (a ++ b) = coherent c a ++ coherent c b.
Proof. apply filter_app. Qed.
Lemma coherent_all w a : (forall v, In v a -> ov_word v = w) -> coherent c a = if c w then [] else a.
Proof.
  induction a as [|v a IH]; intros H; [destruct (c w); reflexivity|]. cbn [coherent filter]. fold (coherent c a).
  rewrite IH by (intros x Hx; apply H; right; exact Hx). rewrite (H v (or_introl eq_refl)). destruct (c w); reflexivity.
Qed.
Lemma kept_groups_run w a b : (forall v, In v a -> ov_word v = w) -> kept_groups c (Some w) (a ++ b) = kept_groups c (Some w) b.
Proof.
  induction a as [|v a IH]; intros H; [reflexivity|]. cbn [app kept_groups].
  rewrite (H v (or_introl eq_refl)), Z.eqb_refl, IH by (intros x Hx; apply H; right; exact Hx). destruct (c w); lia.
Qed.
Lemma kept_groups_none w b : (match b with v :: _ => ov_word v <> w | [] => True end) -> kept_groups c (Some w) b = kept_groups c None b.
Proof. destruct b as [|v b]; intros H; [reflexivity|]. cbn [kept_groups]. destruct (Z.eqb_spec w (ov_word v)); [congruence|reflexivity]. Qed.

Lemma keep_runs_ok fuel : forall out rest count, (List.length rest < fuel)%nat ->
  keep_runs fuel pred out rest count = Ok (out ++ coherent c rest, count + kept_groups c None rest).
Proof.
  induction fuel as [|fuel IH]; intros out rest count Hf; [lia|]. cbn [keep_runs]. destruct rest as [|v l].
  - cbn [coherent filter kept_groups]. rewrite app_nil_r, Z.add_0_r. reflexivity.
  - destruct (split_run (ov_word v) l) as [run rest] eqn:Es. destruct (split_run_ok _ _ _ _ Es) as (-> & A & B).
    rewrite Hp. cbn [bind]. cbn [List.length] in Hf. rewrite app_length in Hf.
    cbn [kept_groups]. rewrite (kept_groups_run _ _ _ A), (kept_groups_none _ _ B).
    change (v :: run ++ rest) with ((v :: run) ++ rest). rewrite coherent_app.
    rewrite (coherent_all (ov_word v) (v :: run)) by (intros x [<-|Hx]; [reflexivity|apply A, Hx]).
    destruct (c (ov_word v)).
    + rewrite IH by lia. reflexivity.
    + rewrite IH by lia. rewrite <- app_assoc, <- Z.add_assoc. reflexivity.
Qed.

Lemma skip_runs_ok fuel : forall out rest count, rest <> [] -> (List.length rest <= fuel)%nat ->
  exists r2 w more out' rest' count', skip_runs fuel pred out rest count = Ok (out', rest', count') /\
    rest = r2 ++ more /\ r2 <> [] /\ (forall v, In v r2 -> ov_word v = w) /\
    (match more with v :: _ => ov_word v <> w | [] => True end) /\
    (List.length rest' < List.length rest)%nat /\
    out' ++ coherent c rest' = out ++ r2 ++ coherent c more /\
    count' + kept_groups c None rest' = count + 1 + kept_groups c None more.
Proof.
  induction fuel as [|fuel IH]; intros out rest count Hn Hf; [destruct rest; [congruence|cbn [List.length] in Hf; lia]|].
  destruct rest as [|v l]; [congruence|]. cbn [skip_runs].
  destruct (split_run (ov_word v) l) as [run rest] eqn:Es. destruct (split_run_ok _ _ _ _ Es) as (-> & A & B).
  assert (A' : forall x, In x (v :: run) -> ov_word x = ov_word v) by (intros x [<-|Hx]; [reflexivity|apply A, Hx]).
  cbn [List.length] in Hf. rewrite app_length in Hf.
  exists (v :: run), (ov_word v), rest. destruct rest as [|u rest].
  - exists (out ++ v :: run), [], (count + 1). split; [reflexivity|]. split; [reflexivity|]. split; [discriminate|].
    split; [exact A'|]. split; [exact I|]. split; [cbn [List.length]; lia|]. cbn [coherent filter]. split; [rewrite !app_nil_r; reflexivity|reflexivity].
  - rewrite Hp. cbn [bind]. destruct (c (ov_word u)) eqn:Cu.
    + exists (out ++ v :: run), (u :: rest), (count + 1). split; [reflexivity|]. split; [reflexivity|]. split; [discriminate|].
      split; [exact A'|]. split; [exact B|]. split; [cbn [List.length]; rewrite app_length; cbn [List.length]; lia|].
      split; [rewrite <- app_assoc; reflexivity|reflexivity].
    + destruct (IH (out ++ v :: run) (u :: rest) (count + 1) ltac:(discriminate) ltac:(cbn [List.length] in *; lia))
        as (r2 & w & more & out' & rest' & count' & E & Er & Nr & Ar & Br & Lr & El & Ek).
      exists out', rest', count'. split; [exact E|]. split; [reflexivity|]. split; [discriminate|]. split; [exact A'|]. split; [exact B|].
      split; [cbn [List.length] in *; rewrite app_length; cbn [List.length]; lia|].
      assert (Cw : c w = false).
      { destruct r2 as [|x r2]; [congruence|]. injection Er as -> _. rewrite <- (Ar x (or_introl eq_refl)). exact Cu. }
      split.
      * rewrite El, Er, coherent_app, (coherent_all w r2 Ar), Cw, <- app_assoc. reflexivity.
      * rewrite Ek, Er. destruct r2 as [|x r2]; [congruence|]. cbn [app kept_groups].
        rewrite (Ar x (or_introl eq_refl)), Cw, kept_groups_run by (intros y Hy; apply Ar; right; exact Hy).
        rewrite kept_groups_none by exact Br. lia.
Qed.

(** Every list is one run or begins with two. *)
Lemma filter_other_run w l : (forall v, In v l -> ov_word v = w) -> filter (fun x => negb (ov_word x =? w)) l = [].
Proof.
  induction l as [|v l IH]; intros H; [reflexivity|]. cbn [filter]. rewrite (H v (or_introl eq_refl)), Z.eqb_refl. cbn [negb].
  apply IH. intros x Hx. apply H. right. exact Hx.
Qed.
Lemma second_word_runs w1 r1 u rest : r1 <> [] -> (forall v, In v r1 -> ov_word v = w1) -> ov_word u <> w1 ->
  first_word (r1 ++ u :: rest) = Some w1 /\ second_word (r1 ++ u :: rest) = Some (ov_word u).
Proof.
  destruct r1 as [|x r1]; intros N H E; [congruence|]. cbn [app first_word second_word].
  pose proof (H x (or_introl eq_refl)) as ->. split; [reflexivity|].
  rewrite filter_app, (filter_other_run w1 r1) by (intros y Hy; apply H; right; exact Hy). cbn [app filter].
  destruct (Z.eqb_spec (ov_word u) w1); [contradiction|]. reflexivity.
Qed.

Lemma filter_line_cases vec :
  (second_word vec = None /\ filter_line pred vec = Ok (vec, 0)) \/
  (exists w1 w2 r1 r2 rest, vec = r1 ++ r2 ++ rest /\ first_word vec = Some w1 /\ second_word vec = Some w2 /\
     r1 <> [] /\ (forall v, In v r1 -> ov_word v = w1) /\ r2 <> [] /\ (forall v, In v r2 -> ov_word v = w2) /\
     w1 <> w2 /\ first_word rest <> Some w2 /\
     filter_line pred vec = Ok (if c w1 then coherent c vec else r1 ++ r2 ++ coherent c rest,
                                if c w1 then kept_groups c None vec else 1 + kept_groups c None rest)).
Proof.
  destruct vec as [|v l]; [left; split; reflexivity|].
  unfold filter_line. destruct (split_run (ov_word v) l) as [run rest] eqn:Es.
  destruct (split_run_ok _ _ _ _ Es) as (-> & A & B). destruct rest as [|u rest].
  - left. split; [|reflexivity]. rewrite app_nil_r. cbn [second_word]. rewrite filter_other_run by exact A. reflexivity.
  - right. assert (A' : forall x, In x (v :: run) -> ov_word x = ov_word v) by (intros x [<-|Hx]; [reflexivity|apply A, Hx]).
    destruct (second_word_runs (ov_word v) (v :: run) u rest ltac:(discriminate) A' B) as [F S2].
    assert (EL : ov_word (last (v :: run) v) = ov_word v).
    { apply A'. rewrite (app_removelast_last v (l := v :: run)) at 2 by discriminate. apply in_or_app. right. left. reflexivity. }
    rewrite Hp, EL. cbn [bind]. change (v :: run ++ u :: rest) with ((v :: run) ++ u :: rest) in *.
    destruct (skip_runs_ok (S (List.length ((v :: run) ++ u :: rest))) (v :: run) (u :: rest) 0 ltac:(discriminate)
      ltac:(rewrite app_length; lia)) as (r2 & w2 & more & out' & rest' & count' & E & Er & Nr & Ar & Br & Lr & El & Ek).
    exists (ov_word v), w2, (v :: run), r2, more.
    assert (W2 : ov_word u = w2) by (destruct r2 as [|x r2]; [congruence|]; injection Er as -> _; apply Ar; left; reflexivity).
    split; [rewrite Er; reflexivity|]. split; [exact F|]. split; [rewrite S2, W2; reflexivity|]. split; [discriminate|]. split; [exact A'|].
    split; [exact Nr|]. split; [exact Ar|]. split; [congruence|]. split; [destruct more; cbn [first_word]; congruence|].
    destruct (c (ov_word v)) eqn:Cv.
    + rewrite keep_runs_ok by (rewrite app_length; cbn [List.length]; lia). rewrite coherent_app, (coherent_all _ _ A'), Cv.
      cbn [app kept_groups]. rewrite Cv, kept_groups_run by exact A. rewrite (kept_groups_none _ (u :: rest)) by exact B. reflexivity.
    + rewrite E. cbn [bind]. rewrite keep_runs_ok by (rewrite app_length in *; cbn [List.length] in *; lia). rewrite El, Ek. reflexivity.
Qed.

Lemma filter_line_exact vec w1 w2 : first_word vec = Some w1 -> second_word vec = Some w2 ->
  c w1 = true \/ c w2 = false -> filter_line pred vec =
    Ok (coherent c vec, if c w1 then kept_groups c None vec else kept_groups c None vec - 1).
Proof.
  intros F S H. destruct (filter_line_cases vec) as [[N _]|(x1 & x2 & r1 & r2 & rest & Ev & F' & S' & N1 & A1 & N2 & A2 & Ne & Fr & E)]; [congruence|].
  rewrite F in F'. rewrite S in S'. injection F' as <-. injection S' as <-. rewrite E. destruct (c w1) eqn:C1; [reflexivity|].
  destruct H as [H|H]; [discriminate|].
  assert (K : kept_groups c None vec = 2 + kept_groups c None rest).
  { rewrite Ev. destruct r1 as [|x r1]; [congruence|]. destruct r2 as [|y r2]; [congruence|]. cbn [app kept_groups].
    rewrite (A1 x (or_introl eq_refl)), C1. rewrite kept_groups_run by (intros z Hz; apply A1; right; exact Hz). cbn [kept_groups].
    rewrite (A2 y (or_introl eq_refl)), H, kept_groups_run by (intros z Hz; apply A2; right; exact Hz).
    rewrite kept_groups_none by (destruct rest; cbn [first_word] in Fr; [exact I|congruence]).
    destruct (Z.eqb_spec w1 w2); [contradiction|lia]. }
  rewrite K. f_equal. f_equal; [|lia]. rewrite Ev, !coherent_app, (coherent_all w1 r1 A1), (coherent_all w2 r2 A2), C1, H. reflexivity.
Qed.
Lemma filter_line_wrong vec w1 w2 : first_word vec = Some w1 -> second_word vec = Some w2 -> c w1 = false -> c w2 = true ->
  exists l n, filter_line pred vec = Ok (l, n) /\ exists v, In v l /\ c (ov_word v) = true.
Proof.
  intros F S H1 H2. destruct (filter_line_cases vec) as [[N _]|(x1 & x2 & r1 & r2 & rest & Ev & F' & S' & N1 & A1 & N2 & A2 & Ne & Fr & E)]; [congruence|].
  rewrite F in F'. rewrite S in S'. injection F' as <-. injection S' as <-. rewrite E, H1. do 2 eexists. split; [reflexivity|].
  destruct r2 as [|y r2]; [congruence|]. exists y. split; [apply in_or_app; right; left; reflexivity|]. rewrite (A2 y (or_introl eq_refl)). exact H2.
Qed.

Lemma subsequence_refl l : subsequence l l.
Proof. induction l; constructor; assumption. Qed.
Lemma subsequence_filter p l : subsequence (filter p l) l.
Proof. induction l as [|v l IH]; cbn [filter]; [constructor|]. destruct (p v); constructor; exact IH. Qed.
Lemma subsequence_app a a' b b' : subsequence a a' -> subsequence b b' -> subsequence (a ++ b) (a' ++ b').
Proof. intros H K. induction H; cbn [app]; [exact K|constructor; exact IHsubsequence|constructor; exact IHsubsequence]. Qed.
Lemma filter_line_sub vec : exists l n, filter_line pred vec = Ok (l, n) /\ subsequence l vec /\ (n = 1 -> l <> []).
Proof.
  destruct (filter_line_cases vec) as [[_ E]|(x1 & x2 & r1 & r2 & rest & Ev & F' & S' & N1 & A1 & N2 & A2 & Ne & Fr & E)].
  - rewrite E. exists vec, 0. split; [reflexivity|]. split; [apply subsequence_refl|lia].
  - rewrite E. do 2 eexists. split; [reflexivity|]. destruct (c x1).
    + split; [apply subsequence_filter|]. intros K N. revert K. generalize (@None Z). clear -N.
      unfold coherent in N. induction vec as [|v l IH]; intros o; cbn [kept_groups]; [lia|]. cbn [filter] in N.
      destruct (c (ov_word v)); [|discriminate]. cbn [negb] in N. apply IH, N.
    + split; [rewrite Ev; apply subsequence_app; [apply subsequence_refl|]; apply subsequence_app; [apply subsequence_refl|apply subsequence_filter]|].
      intros _ N. apply app_eq_nil in N. destruct N as [N _]. contradiction.
Qed.
End Lines.
Lemma subsequence_trans a b d : subsequence a b -> subsequence b d -> subsequence a d.
Proof.
  intros H K. revert a H. induction K; intros a' H; [exact H|inversion H; subst; constructor; auto|constructor; auto].
Qed.

(** * The histogram *)
Lemma halving_total p : forall fuel lo len, (Z.to_nat len < fuel)%nat -> 0 <= len -> (forall i, lo <= i < lo + len -> exists b, p i = Ok b) ->
  exists r, halving fuel p lo len = Ok r /\ lo <= r <= lo + len.
Proof.
  induction fuel as [|f IH]; intros lo len Hf Hl H; [lia|]. cbn [halving]. destruct (Z.leb_spec len 0) as [L|L].
  - exists lo. split; [reflexivity|lia].
  - assert (0 <= len / 2 < len) by (split; [apply Z.div_pos; lia|apply Z.div_lt; lia]).
    destruct (H (lo + len / 2) ltac:(lia)) as [b E]. cbv zeta. rewrite E. cbn [bind]. destruct b.
    + destruct (IH (lo + len / 2 + 1) (len - len / 2 - 1)) as (r & Er & Br); [lia|lia|intros i Hi; apply H; lia|]. exists r. split; [exact Er|lia].
    + destruct (IH lo (len / 2)) as (r & Er & Br); [lia|lia|intros i Hi; apply H; lia|]. exists r. split; [exact Er|lia].
Qed.
Lemma infos_get_total infos w : exists o, infos_get infos w = Ok o.
Proof.
  unfold infos_get, partition_point. pose proof (vsize_nonneg infos).
  assert (R : forall i, 0 <= i < vsize infos -> exists x, rd infos i = Ok x).
  { intros i Hi. destruct (nth_error infos (Z.to_nat i)) as [x|] eqn:E.
    - exists x. apply rd_ok; [lia|exact E].
    - apply nth_error_None in E. unfold vsize in Hi. lia. }
  destruct (halving_total (fun i => x <- rd infos i ;; Ok (wi_word x <? w)) (S (Z.to_nat (vsize infos - 0))) 0 (vsize infos - 0)) as (r & -> & Br);
    [lia|lia|intros i Hi; destruct (R i ltac:(lia)) as [x ->]; eexists; reflexivity|].
  cbn [bind]. destruct (Z.ltb_spec r (vsize infos)); [|eexists; reflexivity]. destruct (R r ltac:(lia)) as [x ->]. eexists. reflexivity.
Qed.
Definition contra infos field ypos line (w : Z) : bool :=
  match infos_get infos w with Ok (Some wi) => line_pred (field (wi_lines wi)) ypos line | _ => false end.
Lemma contradicts_ok infos field ypos line v : contradicts infos field ypos line v = Ok (contra infos field ypos line (ov_word v)).
Proof. unfold contradicts, contra. destruct (infos_get_total infos (ov_word v)) as [o ->]. cbn [bind]. destruct o; reflexivity. Qed.

Lemma min_max_boxes_ok boxes : forall mt xt mb xb mt' xt' mb' xb', min_max_boxes (mt, xt, mb, xb) boxes = (mt', xt', mb', xb') ->
  mt' = fold_right Z.min mt (map box_top boxes) /\ xt' = fold_right Z.max xt (map box_top boxes) /\
  mb' = fold_right Z.min mb (map box_bottom boxes) /\ xb' = fold_right Z.max xb (map box_bottom boxes).
Proof.
  assert (Mn : forall l a b, fold_right Z.min (Z.min a b) l = Z.min b (fold_right Z.min a l)) by (induction l; intros; cbn [fold_right]; [lia|rewrite IHl; lia]).
  assert (Mx : forall l a b, fold_right Z.max (Z.max a b) l = Z.max b (fold_right Z.max a l)) by (induction l; intros; cbn [fold_right]; [lia|rewrite IHl; lia]).
  induction boxes as [|b boxes IH]; intros *; cbn [min_max_boxes]; [intros [= <- <- <- <-]; auto|].
  intros E. apply IH in E. cbn [map fold_right]. rewrite <- Mn, <- Mx, <- Mn, <- Mx. exact E.
Qed.
Lemma fold_min l a : fold_right Z.min a l <= a /\ (forall x, In x l -> fold_right Z.min a l <= x) /\ (fold_right Z.min a l = a \/ In (fold_right Z.min a l) l).
Proof.
  induction l as [|y l (A & B & C)]; cbn [fold_right]; [split; [lia|]; split; [intros ? []|left; reflexivity]|].
  split; [lia|]. split; [intros x [<-|Hx]; [lia|specialize (B x Hx); lia]|]. cbn [In].
  destruct (Z.min_spec y (fold_right Z.min a l)) as [[_ ->]|[_ ->]]; [right; left; reflexivity|]. destruct C as [C|C]; [left; exact C|right; right; exact C].
Qed.
Lemma fold_max l a : a <= fold_right Z.max a l /\ (forall x, In x l -> x <= fold_right Z.max a l) /\ (fold_right Z.max a l = a \/ In (fold_right Z.max a l) l).
Proof.
  induction l as [|y l (A & B & C)]; cbn [fold_right]; [split; [lia|]; split; [intros ? []|left; reflexivity]|].
  split; [lia|]. split; [intros x [<-|Hx]; [lia|specialize (B x Hx); lia]|]. cbn [In].
  destruct (Z.max_spec y (fold_right Z.max a l)) as [[_ ->]|[_ ->]]; [|right; left; reflexivity]. destruct C as [C|C]; [left; exact C|right; right; exact C].
Qed.

Lemma incr_ok ys i : 0 <= i < vsize ys -> exists ys', incr ys i = Ok ys' /\ vsize ys' = vsize ys.
Proof.
  intros H. unfold incr. destruct (nth_error ys (Z.to_nat i)) as [n|] eqn:E.
  - rewrite (rd_ok ys i n) by (assumption || lia). cbn [bind]. rewrite wr_ok by (unfold vsize in H; exact H). eexists. split; [reflexivity|apply vsize_upd].
  - apply nth_error_None in E. unfold vsize in H. lia.
Qed.
Lemma incr_ub ys i : vsize ys <= i -> incr ys i = UB.
Proof.
  intros H. unfold incr, rd. unfold vsize in H. destruct (Z.ltb_spec i 0); [reflexivity|].
  rewrite (proj2 (nth_error_None ys (Z.to_nat i))) by lia. reflexivity.
Qed.
Lemma count_bottoms_ok mb boxes : forall ys, (forall b, In b boxes -> 0 <= u32 (box_bottom b - mb) < vsize ys) ->
  exists ys', count_bottoms ys mb boxes = Ok ys' /\ vsize ys' = vsize ys.
Proof.
  induction boxes as [|b boxes IH]; intros ys H; [exists ys; split; reflexivity|]. cbn [count_bottoms].
  destruct (incr_ok ys _ (H b (or_introl eq_refl))) as (y1 & -> & L). cbn [bind].
  destruct (IH y1) as (ys' & E & L'); [intros x Hx; rewrite L; apply H; right; exact Hx|]. exists ys'. split; [exact E|congruence].
Qed.

Definition below (st st' : list (list oview)) : Prop := vsize st' = vsize st /\ forall r, 0 <= r -> subsequence (list_at st' r) (list_at st r).
Lemma below_refl st : below st st.
Proof. split; [reflexivity|]. intros. apply subsequence_refl. Qed.
Lemma below_trans a b d : below a b -> below b d -> below a d.
Proof. intros [L1 H1] [L2 H2]. split; [congruence|]. intros r Hr. eapply subsequence_trans; [apply H2, Hr|apply H1, Hr]. Qed.
Lemma below_upd st r l : 0 <= r < vsize st -> subsequence l (list_at st r) -> below st (upd st (Z.to_nat r) l).
Proof.
  intros Hr Hl. split; [apply vsize_upd|]. intros q Hq. destruct (list_at_upd st r l Hr) as [U1 U2].
  destruct (Z.eq_dec q r) as [->|Ne]; [rewrite U1; exact Hl|rewrite U2 by assumption; apply subsequence_refl].
Qed.

Lemma filter_baseline_ok infos baseline mt amb : forall boxes st ys has, valid st amb -> List.length boxes = List.length amb ->
  (forall b, In b boxes -> 0 <= u32 (box_top b - mt) < vsize ys) ->
  exists st' ys' has', filter_baseline infos baseline mt st amb boxes ys has = Ok (st', ys', has') /\ below st st' /\ vsize ys' = vsize ys.
Proof.
  induction amb as [|r amb IH]; intros boxes st ys has V L H.
  - exists st, ys, has. split; [reflexivity|]. split; [apply below_refl|reflexivity].
  - destruct boxes as [|b boxes]; [discriminate|]. cbn [filter_baseline].
    assert (Hr : 0 <= r < vsize st) by (apply V; left; reflexivity). rewrite list_at_rd by exact Hr. cbn [bind].
    destruct (filter_line_sub _ (contra infos wl_base (box_bottom b) baseline) (contradicts_ok infos wl_base (box_bottom b) baseline) (list_at st r)) as (l & n & -> & Hl & Hn).
    cbn [bind]. rewrite wr_ok by (unfold vsize in Hr; exact Hr). cbn [bind].
    assert (E : exists ys1 has1, (if n =? 1 then
           v <- rd l 0 ;;
           p <- infos_get infos (ov_word v) ;;
           match p with
           | Some wi =>
             if (wl_base (wi_lines wi) =? 2) && (wl_mean (wi_lines wi) =? 2) then
               ys <- incr ys (u32 (box_top b - mt)) ;; Ok (ys, true)
             else Ok (ys, has)
           | None => Ok (ys, has)
           end
         else Ok (ys, has)) = Ok (ys1, has1) /\ vsize ys1 = vsize ys).
    { destruct (Z.eqb_spec n 1) as [N|N]; [|do 2 eexists; split; reflexivity]. destruct l as [|v l]; [exfalso; apply Hn; [exact N|reflexivity]|].
      change (rd (v :: l) 0) with (Ok v). cbn [bind]. destruct (infos_get_total infos (ov_word v)) as [o ->]. cbn [bind].
      destruct o as [wi|]; [|do 2 eexists; split; reflexivity]. destruct (_ && _); [|do 2 eexists; split; reflexivity].
      destruct (incr_ok ys _ (H b (or_introl eq_refl))) as (y1 & -> & Ly). cbn [bind]. do 2 eexists. split; [reflexivity|exact Ly]. }
    destruct E as (ys1 & has1 & -> & L1). cbn [bind].
    destruct (IH boxes (upd st (Z.to_nat r) l) ys1 has1) as (st' & ys' & has' & E & B & L').
    + intros q Hq. rewrite vsize_upd. apply V. right. exact Hq.
    + cbn [List.length] in L. lia.
    + intros x Hx. rewrite L1. apply H. right. exact Hx.
    + exists st', ys', has'. split; [exact E|]. split; [|congruence]. eapply below_trans; [apply below_upd; eassumption|exact B].
Qed.
Lemma filter_meanline_ok infos meanline amb : forall boxes st, valid st amb -> List.length boxes = List.length amb ->
  exists st', filter_meanline infos meanline st amb boxes = Ok st' /\ below st st'.
Proof.
  induction amb as [|r amb IH]; intros boxes st V L.
  - exists st. split; [reflexivity|apply below_refl].
  - destruct boxes as [|b boxes]; [discriminate|]. cbn [filter_meanline].
    assert (Hr : 0 <= r < vsize st) by (apply V; left; reflexivity). rewrite list_at_rd by exact Hr. cbn [bind].
    destruct (filter_line_sub _ (contra infos wl_mean (box_top b) meanline) (contradicts_ok infos wl_mean (box_top b) meanline) (list_at st r)) as (l & n & -> & Hl & Hn).
    cbn [bind]. rewrite wr_ok by (unfold vsize in Hr; exact Hr). cbn [bind].
    destruct (IH boxes (upd st (Z.to_nat r) l)) as (st' & E & B).
    + intros q Hq. rewrite vsize_upd. apply V. right. exact Hq.
    + cbn [List.length] in L. lia.
    + exists st'. split; [exact E|]. eapply below_trans; [apply below_upd; eassumption|exact B].
Qed.

Lemma u32_nonneg x : 0 <= u32 x.
Proof. unfold u32. apply Z.mod_pos_bound. lia. Qed.
Lemma buffer_vsize n : 0 <= n -> vsize (repeat 0 (Z.to_nat n)) = n.
Proof. intros H. unfold vsize. rewrite repeat_length. lia. Qed.

(** What is needed for the two histograms. *)
Lemma filter_by_lines_ok infos st amb b boxes : valid st amb -> List.length (b :: boxes) = List.length amb ->
  (forall x, In x (b :: boxes) -> 0 <= u32 (box_bottom x - least_bottom b boxes) < buffer_len b boxes) ->
  (forall x, In x (b :: boxes) -> 0 <= u32 (box_top x - fold_right Z.min (box_top b) (map box_top boxes)) < buffer_len b boxes) ->
  exists st', filter_by_lines infos st amb (b :: boxes) = Ok st' /\ below st st'.
Proof.
  intros V L HB HT. unfold filter_by_lines.
  assert (BL : 0 <= bottom_len b boxes) by (unfold bottom_len; destruct (min_max_box b boxes) as [[[? ?] ?] ?]; apply u32_nonneg).
  assert (TL : 0 <= top_len b boxes) by (unfold top_len; destruct (min_max_box b boxes) as [[[? ?] ?] ?]; apply u32_nonneg).
  destruct (min_max_box b boxes) as [[[mt xt] mb] xb] eqn:M. destruct (min_max_boxes_ok _ _ _ _ _ _ _ _ _ M) as (Mt & Xt & Mb & Xb).
  cbv zeta. fold (least_bottom b boxes) in Mb. rewrite <- Mb in HB. rewrite <- Mt in HT.
  assert (BU : buffer_len b boxes = Z.max (bottom_len b boxes) (top_len b boxes)) by reflexivity.
  assert (VS : vsize (repeat 0 (Z.to_nat (buffer_len b boxes))) = buffer_len b boxes) by (apply buffer_vsize; lia).
  destruct (count_bottoms_ok mb (b :: boxes) (repeat 0 (Z.to_nat (buffer_len b boxes)))) as (ys & -> & Ly);
    [rewrite VS; exact HB|]. cbn [bind]. rewrite VS in Ly.
  set (n := Z.to_nat (Z.min (bottom_len b boxes) (top_len b boxes))).
  assert (Lz : vsize (repeat 0 n ++ skipn n ys) = buffer_len b boxes).
  { rewrite <- Ly. unfold vsize in *. rewrite app_length, repeat_length, skipn_length. unfold n. lia. }
  destruct (filter_baseline_ok infos (u32 (max_index (firstn (Z.to_nat (bottom_len b boxes)) ys) + mb)) mt amb (b :: boxes) st (repeat 0 n ++ skipn n ys) false)
    as (st1 & ys1 & has1 & -> & B1 & L1); [exact V|exact L|rewrite Lz; exact HT|]. cbn [bind].
  destruct has1; [|exists st1; split; [reflexivity|exact B1]].
  destruct (filter_meanline_ok infos (u32 (max_index (firstn (Z.to_nat (top_len b boxes)) ys1) + mt)) amb (b :: boxes) st1) as (st2 & E & B2).
  - intros q Hq. rewrite (proj1 B1). apply V, Hq.
  - exact L.
  - exists st2. split; [exact E|]. eapply below_trans; eassumption.
Qed.

Definition small_boxes (l : list box) : Prop := forall x, In x l -> small_box x.
Lemma lens b boxes : small_boxes (b :: boxes) -> boxes <> [] ->
  exists mt xt mb xb, min_max_box b boxes = (mt, xt, mb, xb) /\ mt = fold_right Z.min (box_top b) (map box_top boxes) /\ mb = least_bottom b boxes /\
    (forall x, In x (b :: boxes) -> mt <= box_top x /\ mb <= box_bottom x) /\
    (forall x, In x boxes -> box_top x <= xt /\ box_bottom x <= xb) /\
    0 <= mt <= xt /\ 0 <= mb <= xb /\ xt < 4294967295 /\ xb < 4294967295 /\ bottom_len b boxes = xb - mb + 1 /\ top_len b boxes = xt - mt + 1.
Proof.
  intros Sm N. destruct (min_max_box b boxes) as [[[mt xt] mb] xb] eqn:M. exists mt, xt, mb, xb. split; [reflexivity|].
  unfold bottom_len, top_len. rewrite M. destruct (min_max_boxes_ok _ _ _ _ _ _ _ _ _ M) as (Mt & Xt & Mb & Xb).
  split; [exact Mt|]. split; [exact Mb|].
  destruct (fold_min (map box_top boxes) (box_top b)) as (A1 & A2 & A3). destruct (fold_max (map box_top boxes) 0) as (B1 & B2 & B3).
  destruct (fold_min (map box_bottom boxes) (box_bottom b)) as (C1 & C2 & C3). destruct (fold_max (map box_bottom boxes) 0) as (D1 & D2 & D3).
  rewrite <- Mt in *. rewrite <- Xt in *. rewrite <- Mb in *. rewrite <- Xb in *.
  assert (P : forall x, In x (b :: boxes) -> mt <= box_top x /\ mb <= box_bottom x).
  { intros x [<-|Hx]; [split; assumption|]. split; [apply A2, in_map, Hx|apply C2, in_map, Hx]. }
  assert (Q : forall x, In x boxes -> box_top x <= xt /\ box_bottom x <= xb) by (intros x Hx; split; [apply B2, in_map, Hx|apply D2, in_map, Hx]).
  split; [exact P|]. split; [exact Q|].
  destruct boxes as [|y boxes]; [congruence|].
  assert (Iy : In y (y :: boxes)) by (left; reflexivity). destruct (Q y Iy) as [Q1 Q2]. destruct (P y (or_intror Iy)) as [P1 P2].
  assert (Hmt : 0 <= mt).
  { destruct A3 as [->|A3]; [apply (Sm b); left; reflexivity|]. apply in_map_iff in A3. destruct A3 as (x & <- & Hx). apply (Sm x). right. exact Hx. }
  assert (Hmb : 0 <= mb).
  { destruct C3 as [->|C3]; [apply (Sm b); left; reflexivity|]. apply in_map_iff in C3. destruct C3 as (x & <- & Hx). apply (Sm x). right. exact Hx. }
  assert (Hxt : xt < 4294967295).
  { destruct B3 as [->|B3]; [lia|]. apply in_map_iff in B3. destruct B3 as (x & <- & Hx). apply (Sm x). right. exact Hx. }
  assert (Hxb : xb < 4294967295).
  { destruct D3 as [->|D3]; [lia|]. apply in_map_iff in D3. destruct D3 as (x & <- & Hx). apply (Sm x). right. exact Hx. }
  rewrite !u32_small by lia. repeat split; lia.
Qed.

Lemma lines_in_bounds infos st amb b boxes : valid st amb -> List.length (b :: boxes) = List.length amb -> small_boxes (b :: boxes) ->
  (exists x, In x boxes /\ box_bottom b <= box_bottom x) -> (exists x, In x boxes /\ box_top b <= box_top x) ->
  exists st', filter_by_lines infos st amb (b :: boxes) = Ok st' /\ below st st'.
Proof.
  intros V L Sm (x & Hx & Bx) (y & Hy & Ty).
  destruct (lens b boxes Sm) as (mt & xt & mb & xb & M & Mt & Mb & P & Q & R1 & R2 & R3 & R4 & E1 & E2); [intros ->; destruct Hx|].
  assert (BU : buffer_len b boxes = Z.max (bottom_len b boxes) (top_len b boxes)) by reflexivity.
  apply filter_by_lines_ok; [exact V|exact L| |].
  - intros z Hz. destruct (P z Hz) as [P1 P2]. rewrite <- Mb. destruct (Q x Hx) as [_ Qx].
    assert (box_bottom z <= xb) by (destruct Hz as [<-|Hz]; [lia|apply Q, Hz]). rewrite u32_small by lia. lia.
  - intros z Hz. destruct (P z Hz) as [P1 P2]. rewrite <- Mt. destruct (Q y Hy) as [Qy _].
    assert (box_top z <= xt) by (destruct Hz as [<-|Hz]; [lia|apply Q, Hz]). rewrite u32_small by lia. lia.
Qed.

Lemma lines_out_of_bounds infos st amb b boxes : small_boxes (b :: boxes) ->
  buffer_len b boxes <= box_bottom b - least_bottom b boxes -> filter_by_lines infos st amb (b :: boxes) = UB.
Proof.
  intros Sm H. unfold filter_by_lines. destruct (min_max_box b boxes) as [[[mt xt] mb] xb] eqn:M.
  destruct (min_max_boxes_ok _ _ _ _ _ _ _ _ _ M) as (Mt & Xt & Mb & Xb). fold (least_bottom b boxes) in Mb. cbv zeta.
  cbn [count_bottoms]. rewrite incr_ub; [reflexivity|].
  assert (0 <= buffer_len b boxes).
  { unfold buffer_len, bottom_len. rewrite M. pose proof (u32_nonneg (xb - mb + 1)). lia. }
  assert (0 <= mb).
  { rewrite Mb. unfold least_bottom. destruct (fold_min (map box_bottom boxes) (box_bottom b)) as (_ & _ & [->|I]); [apply (Sm b); left; reflexivity|].
    apply in_map_iff in I. destruct I as (x & Ex & Hx). rewrite <- Ex. apply (Sm x). right. exact Hx. }
  destruct (Sm b (or_introl eq_refl)) as [_ Bb]. rewrite buffer_vsize by assumption. rewrite <- Mb in H. rewrite u32_small by lia. exact H.
Qed.
(** Exactly when the first box is too low. *)
Lemma baseline_in_bounds b boxes : small_boxes (b :: boxes) -> boxes <> [] ->
  ((exists ys, count_bottoms (repeat 0 (Z.to_nat (buffer_len b boxes))) (least_bottom b boxes) (b :: boxes) = Ok ys) <->
   box_bottom b - least_bottom b boxes < buffer_len b boxes).
Proof.
  intros Sm N. destruct (lens b boxes Sm N) as (mt & xt & mb & xb & M & Mt & Mb & P & Q & R1 & R2 & R3 & R4 & E1 & E2).
  assert (BU : buffer_len b boxes = Z.max (bottom_len b boxes) (top_len b boxes)) by reflexivity.
  assert (VS : vsize (repeat 0 (Z.to_nat (buffer_len b boxes))) = buffer_len b boxes) by (apply buffer_vsize; lia). rewrite <- Mb.
  assert (Sb : forall x, In x (b :: boxes) -> u32 (box_bottom x - mb) = box_bottom x - mb).
  { intros x Hx. destruct (P x Hx). destruct (Sm x Hx) as [_ ?]. apply u32_small. lia. }
  split.
  - intros [ys E]. destruct (Z_lt_le_dec (box_bottom b - mb) (buffer_len b boxes)) as [L|L]; [exact L|]. exfalso. cbn [count_bottoms] in E.
    rewrite incr_ub in E; [discriminate|]. rewrite VS, Sb by (left; reflexivity). exact L.
  - intros L. destruct (count_bottoms_ok mb (b :: boxes) (repeat 0 (Z.to_nat (buffer_len b boxes)))) as (ys & E & _); [|exists ys; exact E].
    intros x Hx. rewrite VS, (Sb x Hx). destruct (P x Hx). destruct Hx as [<-|Hx]; [lia|]. destruct (Q x Hx). lia.
Qed.
(** A single box: the buffer has about 2^32 elements. *)
Lemma single_box_buffer b : 2 <= box_bottom b < 4294967296 -> 4294967297 - box_bottom b <= buffer_len b [].
Proof.
  intros H. unfold buffer_len, bottom_len. cbn [min_max_box min_max_boxes].
  assert (E : u32 (0 - box_bottom b + 1) = 4294967297 - box_bottom b).
  { unfold u32. symmetry. apply Z.mod_unique with (q := -1); lia. }
  rewrite E. lia.
Qed.
Lemma single_box_ub infos st amb b : box_top b = 1 -> box_bottom b = 1 -> filter_by_lines infos st amb [b] = UB.
Proof.
  intros T B. unfold filter_by_lines, buffer_len, bottom_len, top_len. cbn [min_max_box min_max_boxes]. rewrite T, B.
  cbn [count_bottoms]. rewrite B. reflexivity.
Qed.
