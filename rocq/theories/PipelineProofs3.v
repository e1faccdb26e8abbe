(** The filters and the assembly on characters of one word; the whole program. *)
From Verif Require Import Base BaseProofs SortModel SortProofs ImageModel ImageSpec ImageProofs PnmModel BoxModel BoxSpec BoxProofs StratModel ZoneModel DatasModel DatasSpec DatasProofs
  UtfSpec StreamModel GlyphIoModel GlyphIoSpec DatasIoModel DatasIoSpec DatasIoProofs DictIoModel DictIoSpec DictIoProofs TrieModel TrieSpec TrieProofs SpellModel SpellSpec
  IndexModel IndexSpec IndexProofs FloatModel FloatSpec FloatProofs RecogModel RecogSpec RankProofs RecogProofs RecogProofs2 RecogWitness
  GlyphsModel GlyphsSpec GlyphsProofs3 FilterModel FilterSpec FilterProofs ExtractModel ExtractSpec ExtractProofs AssembleModel AssembleSpec AssembleProofs
  LearnModel LearnSpec LearnProofs2 LearnProofs3 FlatTrieProofs PipelineModel PipelineSpec PipelineProofs PipelineProofs2.
From Coq Require Import Sorted.

(** * Filters *)
Lemma split_run_uniform w l : (forall v, In v l -> ov_word v = w) -> split_run w l = (l, []).
Proof.
  induction l as [|v l IH]; intros H; [reflexivity|]. cbn [split_run]. rewrite (H v) by (left; reflexivity). rewrite Z.eqb_refl, IH by (intros; apply H; right; assumption). reflexivity.
Qed.
Lemma filter_line_uniform pred w vec : (forall v, In v vec -> ov_word v = w) -> filter_line pred vec = Ok (vec, 0).
Proof.
  destruct vec as [|v l]; intros H; [reflexivity|]. unfold filter_line. rewrite (H v) by (left; reflexivity).
  rewrite split_run_uniform by (intros; apply H; right; assumption). reflexivity.
Qed.
Lemma upd_same {A} (l : list A) n d : (n < List.length l)%nat -> upd l n (nth n l d) = l.
Proof. revert n. induction l as [|a l IH]; intros [|n] H; cbn in *; try lia; [reflexivity|]. rewrite IH by lia. reflexivity. Qed.
Lemma rewrite_same st r : 0 <= r < vsize st -> wr st r (list_at st r) = Ok st.
Proof. intros H. unfold vsize in H. rewrite wr_ok by exact H. unfold list_at. rewrite upd_same by lia. reflexivity. Qed.

(** Candidates of one word. *)
Definition one_word (st : list (list oview)) (r wid : Z) : Prop :=
  0 <= r < vsize st /\ list_at st r <> [] /\ forall v, In v (list_at st r) -> ov_word v = wid.

Lemma baseline_uniform infos baseline mt st : forall amb ws boxes ys has, Forall2 (one_word st) amb ws -> List.length boxes = List.length amb ->
  filter_baseline infos baseline mt st amb boxes ys has = Ok (st, ys, has).
Proof.
  induction amb as [|r amb IH]; intros ws boxes ys has F L; [reflexivity|]. inversion F as [|? w ? ws' (Hr & _ & Hu) F']; subst.
  destruct boxes as [|b boxes]; [discriminate|]. cbn [filter_baseline]. rewrite list_at_rd by exact Hr. cbn [bind].
  rewrite (filter_line_uniform _ w) by exact Hu. cbn [bind]. rewrite rewrite_same by exact Hr. cbn [bind]. change (0 =? 1) with false. cbn [bind].
  apply (IH ws'); [exact F'|]. cbn [List.length] in L. lia.
Qed.
Lemma lines_uniform infos st amb ws boxes : Forall2 (one_word st) amb ws -> List.length boxes = List.length amb -> small_boxes boxes -> steady boxes ->
  filter_by_lines infos st amb boxes = Ok st.
Proof.
  intros F L Sm St. destruct boxes as [|b boxes]; [reflexivity|]. destruct St as (x & Hx & Bx).
  assert (NE : boxes <> []) by (intros ->; destruct Hx).
  destruct (lens b boxes Sm NE) as (mt & xt & mb & xb & M & Mt & Mb & P & Q & R1 & R2 & R3 & R4 & E1 & E2).
  assert (BU : buffer_len b boxes = Z.max (bottom_len b boxes) (top_len b boxes)) by reflexivity.
  destruct (proj2 (baseline_in_bounds b boxes Sm NE)) as (ys & Ey).
  { rewrite <- Mb. destruct (Q x Hx). lia. }
  unfold filter_by_lines. rewrite M. cbv zeta. rewrite Mb, Ey. cbn [bind].
  rewrite (baseline_uniform infos _ _ st amb ws) by assumption. reflexivity.
Qed.

Lemma chosen_one f l l' w : l <> [] -> (forall v, In v l -> ov_word v = w) -> chosen f l l' -> l' <> [] /\ forall v, In v l' -> ov_word v = w.
Proof.
  intros N H C. destruct l as [|a [|b l]]; [congruence| |].
  - cbn in C. subst l'. split; [discriminate|exact H].
  - destruct C as (x & -> & Hx & _). split; [discriminate|]. intros v [<-|[]]. exact (H x Hx).
Qed.
Lemma fonts_uniform st amb ws : Forall2 (one_word st) amb ws -> vsize amb < 4294967296 ->
  exists st' f, filter_by_font st amb = Ok (st', f) /\ Forall2 (one_word st') amb ws.
Proof.
  intros F B.
  assert (V : valid st amb). { clear - F. intros r Hr. induction F as [|a w amb ws (H & _) F IH]; [destruct Hr|]. destruct Hr as [<-|Hr]; [exact H|exact (IH Hr)]. }
  destruct (filter_by_font_ok st amb V B) as (st' & f & E & S & C). exists st', f. split; [exact E|].
  destruct C as [(_ & _ & ->)|(_ & [(_ & C)|(_ & ->)])]; try exact F.
  assert (G : forall amb', incl amb' amb -> forall ws', Forall2 (one_word st) amb' ws' -> Forall2 (one_word st') amb' ws').
  { intros amb' I ws' F'. induction F' as [|r w amb' ws' (H1 & H2 & H3) F' IH]; constructor; [|apply IH; intros y Hy; apply I; right; exact Hy].
    split; [rewrite S; exact H1|]. destruct (C r ltac:(lia)) as [C1 _]. exact (chosen_one f _ _ _ H2 H3 (C1 (I r (or_introl eq_refl)))). }
  exact (G amb (incl_refl _) ws F).
Qed.

(** * Breaks *)
Lemma breaks_bounds boxes : forall x n i, In i (breaks x n boxes) -> n <= i < n + Z.of_nat (List.length boxes).
Proof.
  induction boxes as [|b boxes IH]; intros x n i H; [destruct H|]. cbn [breaks List.length] in *. apply in_app_iff in H as [H|H].
  - destruct (x + 4 <? bx b); [destruct H as [<-|[]]; lia|destruct H].
  - apply IH in H. lia.
Qed.
Lemma breaks_sorted boxes : forall x n, StronglySorted Z.lt (breaks x n boxes).
Proof.
  induction boxes as [|b boxes IH]; intros x n; [constructor|]. cbn [breaks]. destruct (x + 4 <? bx b); [|apply IH].
  cbn [app]. constructor; [apply IH|]. apply Forall_forall. intros i Hi. apply breaks_bounds in Hi. lia.
Qed.
Lemma breaks_increasing boxes n : n = Z.of_nat (List.length boxes) -> increasing_breaks n (breaks 0 0 boxes).
Proof. intros ->. split; [apply breaks_sorted|]. intros b Hb. apply breaks_bounds in Hb. lia. Qed.

(** * The line *)
Lemma group_uniform w l : l <> [] -> (forall v, In v l -> ov_word v = w) -> group_words l = [w].
Proof.
  destruct l as [|v l]; [congruence|]. intros _ H. cbn [group_words]. rewrite (H v) by (left; reflexivity). f_equal.
  assert (K : forall v, In v l -> ov_word v = w) by (intros; apply H; right; assumption). clear H.
  induction l as [|u l IH]; [reflexivity|]. cbn [other_words]. rewrite (K u) by (left; reflexivity). rewrite Z.eqb_refl. apply IH. intros; apply K; right; assumption.
Qed.
Section Line.
Context (g : glyphs_table) (wid : list Z -> Z) (st : list (list oview)).
Definition reads (r : Z) (w : list Z) : Prop := one_word st r (wid w) /\ word_text g (wid w) = Ok w.

Lemma character_reads r w : reads r w -> character_of g (list_at st r) = [w].
Proof.
  intros ((_ & N & U) & T). unfold character_of. rewrite <- group_distinct, (group_uniform (wid w)) by assumption. cbn [map]. unfold text_of_word. rewrite T. reflexivity.
Qed.
Lemma line_spoken_from all : forall amb ws boxes x n, Forall2 reads amb ws -> List.length boxes = List.length amb ->
  (forall i, n <= i -> existsb (Z.eqb i) all = existsb (Z.eqb i) (breaks x n boxes)) ->
  map (fun '(i, r) => (existsb (Z.eqb i) all, character_of g (list_at st r))) (combine (upto (List.length amb) n) amb) = spoken x boxes ws.
Proof.
  induction amb as [|r amb IH]; intros ws boxes x n F L H.
  - inversion F; subst. destruct boxes; [reflexivity|discriminate].
  - inversion F as [|? w ? ws' Hr F']; subst. destruct boxes as [|b boxes]; [discriminate|]. cbn [List.length upto combine map spoken].
    rewrite (character_reads r w Hr). f_equal.
    + f_equal. rewrite H by lia. cbn [breaks]. rewrite existsb_app.
      assert (K : existsb (Z.eqb n) (breaks (bx b + bw b) (n + 1) boxes) = false).
      { apply not_true_is_false. rewrite existsb_exists. intros (i & Hi & E). apply Z.eqb_eq in E. subst i. apply breaks_bounds in Hi. lia. }
      rewrite K, orb_false_r. destruct (x + 4 <? bx b); cbn [existsb]; [rewrite Z.eqb_refl|]; reflexivity.
    + apply IH; [exact F'|cbn [List.length] in L; lia|]. intros i Hi. rewrite H by lia. cbn [breaks]. rewrite existsb_app.
      assert (K : existsb (Z.eqb i) (if x + 4 <? bx b then [n] else []) = false).
      { destruct (x + 4 <? bx b); [|reflexivity]. cbn [existsb]. rewrite orb_false_r. apply Z.eqb_neq. lia. }
      rewrite K. reflexivity.
Qed.
Lemma line_spoken amb ws boxes : Forall2 reads amb ws -> List.length boxes = List.length amb -> line_of g st amb (breaks 0 0 boxes) = spoken 0 boxes ws.
Proof.
  intros F L. unfold line_of, vsize. rewrite zrange_upto. apply line_spoken_from; [exact F|exact L|]. intros i _. reflexivity.
Qed.
Lemma reads_resolvable amb ws : Forall2 reads amb ws -> resolvable g st amb.
Proof.
  intros F r Hr. induction F as [|a w amb ws ((H & _ & U) & T) F IH]; [destruct Hr|]. destruct Hr as [<-|Hr]; [|exact (IH Hr)].
  split; [exact H|]. intros v Hv. rewrite (U v Hv). eauto.
Qed.
End Line.

(** Lines whose characters have one candidate. *)
Definition single_line (line : list (bool * list (list Z))) : Prop := Forall (fun p => exists w, snd p = [w]) line.
Lemma spoken_single boxes : forall x ws, single_line (spoken x boxes ws).
Proof.
  induction boxes as [|b boxes IH]; intros x [|w ws]; try constructor; [|apply IH]. cbn [snd]. eauto.
Qed.
Lemma spoken_chars (P : list Z -> Prop) boxes : forall x ws, Forall P ws -> Forall (fun p => Forall P (snd p)) (spoken x boxes ws).
Proof.
  induction boxes as [|b boxes IH]; intros x [|w ws] F; try constructor; inversion F; subst; [|apply IH; assumption].
  cbn [snd]. constructor; [assumption|constructor].
Qed.
Lemma render_single spell line : (forall word w, Forall (fun c => exists s, c = [s]) word -> spell word = Some w -> w = flat_map front word) ->
  forall word, Forall (fun c => exists s, c = [s]) word -> single_line line -> render spell word line = flat_map front word ++ plain line.
Proof.
  intros Hsp.
  assert (F : forall word, Forall (fun c => exists s, c = [s]) word -> flush spell word = flat_map front word).
  { intros [|c w] H; [reflexivity|]. cbn [flush]. destruct (spell (c :: w)) as [t|] eqn:E; [|reflexivity]. exact (Hsp _ _ H E). }
  induction line as [|[b c] line IH]; intros word HW HS; cbn [render]; [rewrite F by exact HW; cbn; rewrite app_nil_r; reflexivity|].
  inversion HS as [|? ? (s & Ec) HS']; subst. cbn [snd] in Ec. subst c.
  assert (P : plain ((b, [s]) :: line) = ((if b then str " " else []) ++ s) ++ plain line) by reflexivity. rewrite P.
  assert (N1 : Forall (fun c => exists s, c = [s]) [[s]]) by (constructor; [eauto|constructor]).
  assert (N2 : Forall (fun c => exists s, c = [s]) (word ++ [[s]])) by (apply Forall_app; split; assumption).
  assert (N0 : Forall (fun c : list (list Z) => exists s, c = [s]) []) by constructor.
  destruct b; destruct (separator [s]) eqn:Es; rewrite ?F by assumption; rewrite ?IH by assumption; cbn [flat_map app front shown]; rewrite <- ?app_assoc; cbn [app]; rewrite ?app_nil_r; try reflexivity.
  rewrite flat_map_app. cbn [flat_map front]. rewrite app_nil_r, <- app_assoc. reflexivity.
Qed.
Lemma choices_single word : Forall (fun c => exists s : list Z, c = [s]) word -> SpellSpec.choices word = [flat_map front word].
Proof.
  induction 1 as [|c word (s & ->) _ IH]; [reflexivity|]. cbn [SpellSpec.choices flat_map front]. rewrite IH. reflexivity.
Qed.
Lemma first_word_single words word w : Forall (fun c => exists s : list Z, c = [s]) word -> SpellSpec.first_word words word = Some w -> w = flat_map front word.
Proof.
  intros F. unfold SpellSpec.first_word. rewrite (choices_single word F). cbn [find]. destruct (existsb _ _); [|discriminate]. intros E. injection E as <-. reflexivity.
Qed.

Lemma single_text line : single_line line -> no_lost_break line ->
  let k := leading line in
  flat_map (fun p => front (snd p)) (firstn k line) ++ plain (clear_first (skipn k line)) = plain (clear_first line) /\ unknown (skipn k line) = 0.
Proof.
  intros HS HB k.
  assert (U : forall l, single_line l -> unknown l = 0).
  { induction 1 as [|[b c] l (w & E) _ IH]; [reflexivity|]. cbn [snd] in E. subst c. unfold unknown in *. cbn [filter snd]. exact IH. }
  split; [|apply U; unfold single_line in *; rewrite <- (firstn_skipn k line) in HS; apply Forall_app in HS; apply HS].
  unfold k in *. clear k. destruct (leading line) as [|k] eqn:Ek; [reflexivity|].
  destruct HB as [HB|HB]; [rewrite Ek in HB; discriminate|]. rewrite Ek in HB.
  assert (C : clear_first line = line) by (destruct line as [|[[|] c] l]; try reflexivity; discriminate). rewrite C.
  assert (C' : clear_first (skipn (S k) line) = skipn (S k) line).
  { destruct (skipn (S k) line) as [|[[|] c] l] eqn:E; try reflexivity. exfalso. exact (HB c l eq_refl). }
  rewrite C'. rewrite <- (firstn_skipn (S k) line) at 3. unfold plain. rewrite flat_map_app. f_equal.
  assert (Q : forall l, single_line l -> flat_map (fun p => front (snd p)) (firstn (leading l) l) =
     flat_map (fun '(brk, c) => (if brk : bool then str " " else []) ++ shown c) (firstn (leading l) l)).
  { induction l as [|[b c] l IH]; intros H; [reflexivity|]. inversion H as [|? ? (w & E) H']; subst. cbn [snd] in E. subst c.
    cbn [leading]. destruct b; [reflexivity|]. destruct (separator [w]); [|reflexivity]. cbn [firstn flat_map snd front shown app]. rewrite IH by exact H'. reflexivity. }
  rewrite <- Ek. apply Q. exact HS.
Qed.
