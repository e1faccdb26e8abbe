From Verif Require Import Base BaseProofs SortModel SortProofs ImageModel ImageSpec ImageProofs DatasModel TrieModel TrieSpec TrieProofs DictionaryProofs NormProofs DefsModel DefsSpec.
From Coq Require Import Sorted Permutation.

Section Defs.
Context {D : Type}.
Implicit Types a b c d : definition D.

Lemma def_less_iff a b : wf_def a -> wf_def b -> (def_less a b = true <-> def_before a b).
Proof.
  intros Wa Wb. unfold def_less, def_before. rewrite image_compare_ok by assumption.
  assert (I : (img_cmp (def_img a) (def_img b) <? 0) = true <-> picture_before (def_img a) (def_img b)).
  { rewrite <- img_cmp_before by assumption. destruct (img_cmp_vals (def_img a) (def_img b)) as [-> | [-> | ->]]; cbn; split; congruence. }
  rewrite <- !list_ltb_lex.
  destruct (list_ltb Z.ltb (def_c a) (def_c b)) eqn:E1; [tauto|].
  destruct (list_ltb Z.ltb (def_c b) (def_c a)) eqn:E2.
  { split; [discriminate|]. intros [H|(H & _)]; [discriminate|]. rewrite H, list_ltb_irrefl in E2. discriminate. }
  pose proof (list_ltb_false_eq _ _ E1 E2) as Ec.
  destruct (list_ltb Z.ltb (def_font a) (def_font b)) eqn:E3; [tauto|].
  destruct (list_ltb Z.ltb (def_font b) (def_font a)) eqn:E4.
  { split; [discriminate|]. intros [H|(_ & [H|(H & _)])]; try discriminate. rewrite H, list_ltb_irrefl in E4. discriminate. }
  pose proof (list_ltb_false_eq _ _ E3 E4) as Ef. rewrite I. split; [intros H; right; split; [exact Ec|right; split; [exact Ef|exact H]]|].
  intros [H|(_ & [H|(_ & H)])]; try discriminate. exact H.
Qed.

Lemma picture_before_trans x y z : full_image x -> full_image y -> full_image z -> picture_before x y -> picture_before y z -> picture_before x z.
Proof. intros Wx Wy Wz. rewrite <- !img_cmp_before by assumption. apply img_cmp_trans; assumption. Qed.
Lemma picture_before_irrefl x : full_image x -> ~ picture_before x x.
Proof. intros W. rewrite <- img_cmp_before by assumption. rewrite (proj2 (img_cmp_eq x x W W) eq_refl). discriminate. Qed.
Lemma picture_cases x y : full_image x -> full_image y -> picture_before x y \/ x = y \/ picture_before y x.
Proof.
  intros Wx Wy. rewrite <- !img_cmp_before, <- (img_cmp_eq x) by assumption. rewrite (img_cmp_antisym x y).
  destruct (img_cmp_vals x y) as [-> | [-> | ->]]; auto.
Qed.
Lemma lex_trans x y z : lex_lt x y -> lex_lt y z -> lex_lt x z.
Proof. rewrite <- !list_ltb_lex. apply list_ltb_trans. Qed.
Lemma lex_irrefl x : ~ lex_lt x x.
Proof. rewrite <- list_ltb_lex, list_ltb_irrefl. discriminate. Qed.
Lemma lex_cases x y : lex_lt x y \/ x = y \/ lex_lt y x.
Proof.
  rewrite <- !list_ltb_lex. destruct (list_ltb Z.ltb x y) eqn:E1; [left; reflexivity|]. destruct (list_ltb Z.ltb y x) eqn:E2; [right; right; reflexivity|].
  right; left. apply list_ltb_false_eq; assumption.
Qed.

Lemma def_before_trans a b c : wf_def a -> wf_def b -> wf_def c -> def_before a b -> def_before b c -> def_before a c.
Proof.
  intros Wa Wb Wc. unfold def_before. intros [H|(E & [H|(F & H)])] [H'|(E' & [H'|(F' & H')])].
  - left. exact (lex_trans _ _ _ H H').
  - left. rewrite <- E'. exact H.
  - left. rewrite <- E'. exact H.
  - left. rewrite E. exact H'.
  - right. split; [congruence|]. left. exact (lex_trans _ _ _ H H').
  - right. split; [congruence|]. left. rewrite <- F'. exact H.
  - left. rewrite E. exact H'.
  - right. split; [congruence|]. left. rewrite F. exact H'.
  - right. split; [congruence|]. right. split; [congruence|]. exact (picture_before_trans _ _ _ Wa Wb Wc H H').
Qed.
Lemma def_before_irrefl a b : wf_def a -> def_alike a b -> ~ def_before a b.
Proof.
  intros W (E1 & E2 & E3). unfold def_before. rewrite <- E1, <- E2, <- E3. intros [H|(_ & [H|(_ & H)])]; [exact (lex_irrefl _ H)|exact (lex_irrefl _ H)|exact (picture_before_irrefl _ W H)].
Qed.
Lemma def_cases a b : wf_def a -> wf_def b -> def_before a b \/ def_alike a b \/ def_before b a.
Proof.
  intros Wa Wb. unfold def_before, def_alike.
  destruct (lex_cases (def_c a) (def_c b)) as [H|[E|H]]; [tauto| |tauto].
  destruct (lex_cases (def_font a) (def_font b)) as [H|[F|H]]; [tauto| |right; right; right; split; [congruence|tauto]].
  destruct (picture_cases (def_img a) (def_img b) Wa Wb) as [H|[G|H]]; [tauto|tauto|]. right; right; right. split; [congruence|]. right. split; [congruence|exact H].
Qed.
Lemma alike_before_l a b c : def_alike a b -> def_before b c -> def_before a c.
Proof. intros (E1 & E2 & E3). unfold def_before. rewrite E1, E2, E3. tauto. Qed.
Lemma alike_before_r a b c : def_alike b c -> def_before a b -> def_before a c.
Proof. intros (E1 & E2 & E3). unfold def_before. rewrite E1, E2, E3. tauto. Qed.
Lemma alike_sym a b : def_alike a b -> def_alike b a.
Proof. intros (? & ? & ?). repeat split; congruence. Qed.
Lemma alike_trans a b c : def_alike a b -> def_alike b c -> def_alike a c.
Proof. intros (? & ? & ?) (? & ? & ?). repeat split; congruence. Qed.

Lemma def_strict_weak (l : list (definition D)) : Forall wf_def l -> strict_weak def_less l.
Proof.
  intros W. rewrite Forall_forall in W. split; [|split].
  - intros a Ha. destruct (def_less a a) eqn:E; [|reflexivity]. apply def_less_iff in E; auto. exfalso. apply (def_before_irrefl a a); auto. repeat split.
  - intros a b c Ha Hb Hc. rewrite !def_less_iff by auto. apply def_before_trans; auto.
  - intros a b c Ha Hb Hc H1 H2. destruct (def_less a c) eqn:H3; [exfalso|reflexivity]. apply def_less_iff in H3; auto.
    destruct (def_cases a b) as [L|[E|L]]; auto.
    + apply def_less_iff in L; auto. congruence.
    + assert (K : def_before b c) by (apply (alike_before_l b a c); [apply alike_sym; exact E|exact H3]). apply def_less_iff in K; auto. congruence.
    + assert (K : def_before b c) by (apply (def_before_trans b a c); auto). apply def_less_iff in K; auto. congruence.
Qed.

Lemma def_same_ok a b : wf_def a -> wf_def b -> exists e, def_same a b = Ok e /\ (e = true <-> def_alike a b).
Proof.
  intros Wa Wb. unfold def_same, def_alike. rewrite image_eq_ok by assumption.
  destruct (list_eqb (def_c a) (def_c b)) eqn:E1; cbn [negb].
  2: { exists false. split; [reflexivity|]. split; [discriminate|]. intros (H & _). apply list_eqb_eq in H. congruence. }
  destruct (list_eqb (def_font a) (def_font b)) eqn:E2; cbn [negb].
  2: { exists false. split; [reflexivity|]. split; [discriminate|]. intros (_ & H & _). apply list_eqb_eq in H. congruence. }
  apply list_eqb_eq in E1. apply list_eqb_eq in E2. eexists. split; [reflexivity|]. rewrite Z.eqb_eq, img_cmp_eq by assumption. tauto.
Qed.

Definition not_after a b : Prop := def_before a b \/ def_alike a b.

Lemma unique_defs_ok (l : list (definition D)) : forall kept, Forall wf_def (kept :: l) -> StronglySorted not_after (kept :: l) ->
  exists out, unique_defs kept l = Ok (kept :: out) /\ increasing_defs (kept :: out) /\ (forall d, In d out -> In d l) /\
    (forall d, In d l -> exists e, In e (kept :: out) /\ def_alike d e).
Proof.
  induction l as [|d l IH]; intros kept W HS.
  { exists []. split; [reflexivity|]. split; [repeat constructor|]. split; intros d []. }
  inversion W as [|? ? Wk Wl]; subst. inversion Wl as [|? ? Wd Wr]; subst. inversion HS as [|? ? HS' F]; subst. inversion HS' as [|? ? HS'' F']; subst.
  inversion F as [|? ? Hkd F1]; subst. cbn [unique_defs]. destruct (def_same_ok kept d Wk Wd) as (e & Ee & He). rewrite Ee. cbn [bind]. destruct e.
  - assert (A : def_alike kept d) by (apply He; reflexivity). destruct (IH kept) as (out & Eo & Io & So & Co); [constructor; assumption|constructor; assumption|].
    exists out. split; [exact Eo|]. split; [exact Io|]. split; [intros x Hx; right; apply So; exact Hx|]. intros x [<-|Hx]; [|apply Co; exact Hx].
    exists kept. split; [left; reflexivity|apply alike_sym; exact A].
  - assert (N : ~ def_alike kept d) by (intros A; apply He in A; discriminate).
    assert (B : def_before kept d) by (destruct Hkd as [B|A]; [exact B|contradiction]).
    destruct (IH d) as (out & Eo & Io & So & Co); [assumption|assumption|]. rewrite Eo. cbn [bind].
    exists (d :: out). split; [reflexivity|]. split; [|split].
    + constructor; [exact Io|]. constructor; [exact B|]. inversion Io as [|? ? _ Fo]; subst. rewrite Forall_forall in *. intros x Hx.
      apply (def_before_trans kept d x); [exact Wk|exact Wd|apply Wr; apply So; exact Hx|exact B|apply Fo; exact Hx].
    + intros x [<-|Hx]; [left; reflexivity|right; apply So; exact Hx].
    + intros x [<-|Hx]; [exists d; split; [right; left; reflexivity|repeat split]|]. destruct (Co x Hx) as (e & Hin & A). exists e. split; [right; exact Hin|exact A].
Qed.

Theorem unique_sort_ok (sort : list (definition D) -> list (definition D)) (defs : list (definition D)) : is_std_sort def_less sort -> Forall wf_def defs ->
  exists out, unique_sort_definitions sort defs = Ok out /\ increasing_defs out /\ (forall d, In d out -> In d defs) /\
    (forall d, In d defs -> exists e, In e out /\ def_alike d e).
Proof.
  intros Hsort W. destruct (Hsort defs (def_strict_weak defs W)) as [P Hs].
  destruct defs as [|x defs].
  { exists []. split; [reflexivity|]. split; [constructor|]. split; intros d []. }
  cbn [unique_sort_definitions]. set (l := sort (x :: defs)) in *. clearbody l.
  assert (Wl : Forall wf_def l) by (rewrite Forall_forall in *; intros d Hd; apply W; apply (Permutation_in _ (Permutation_sym P)); exact Hd).
  destruct l as [|k l]; [apply Permutation_sym, Permutation_nil in P; discriminate|].
  assert (HS : StronglySorted not_after (k :: l)).
  { revert Wl Hs. clear. generalize (k :: l). clear k l. unfold sorted_by. intros l W. induction 1 as [|a l HS IH F]; [constructor|]. inversion W as [|? ? Wa Wl]; subst. constructor; [apply IH; exact Wl|].
    rewrite Forall_forall in *. intros b Hb. specialize (F b Hb). destruct (def_cases a b) as [L|[E|L]]; auto; [left; exact L|right; exact E|].
    apply def_less_iff in L; auto. congruence. }
  destruct (unique_defs_ok l k Wl HS) as (out & E & I & S1 & S2). exists (k :: out). split; [exact E|]. split; [exact I|]. split.
  - intros d Hd. apply (Permutation_in _ (Permutation_sym P)). destruct Hd as [<-|Hd]; [left; reflexivity|right; apply S1; exact Hd].
  - intros d Hd. apply (Permutation_in _ P) in Hd. destruct Hd as [<-|Hd]; [exists k; split; [left; reflexivity|repeat split]|apply S2; exact Hd].
Qed.

(** An increasing list is told by its elements. *)
Lemma increasing_unique (l m : list (definition D)) : Forall wf_def l -> Forall wf_def m -> increasing_defs l -> increasing_defs m ->
  (forall d, In d l <-> In d m) -> l = m.
Proof.
  intros Wl Wm Il. revert m Wm. induction Il as [|a l Il IH F]; intros m Wm Im E.
  { destruct m as [|b m]; [reflexivity|]. destruct (proj2 (E b) (or_introl eq_refl)). }
  destruct m as [|b m]; [destruct (proj1 (E a) (or_introl eq_refl))|]. inversion Im as [|? ? Im' G]; subst.
  inversion Wl as [|? ? Wa Wl']; subst. inversion Wm as [|? ? Wb Wm']; subst.
  rewrite Forall_forall in F, G.
  assert (IR : forall d, wf_def d -> ~ def_before d d) by (intros d Wd; apply def_before_irrefl; [exact Wd|repeat split]).
  assert (Eab : a = b).
  { destruct (proj1 (E a) (or_introl eq_refl)) as [H|H]; [symmetry; exact H|]. destruct (proj2 (E b) (or_introl eq_refl)) as [H'|H']; [exact H'|].
    exfalso. apply (IR a Wa). apply (def_before_trans a b a); auto. }
  subst b. f_equal. apply (IH Wl' m Wm' Im'). intros d. split; intros Hd.
  - destruct (proj1 (E d) (or_intror Hd)) as [<-|H]; [destruct (IR a Wa (F a Hd))|exact H].
  - destruct (proj2 (E d) (or_intror Hd)) as [<-|H]; [destruct (IR a Wa (G a Hd))|exact H].
Qed.

Theorem unique_sort_determined (sort sort' : list (definition D) -> list (definition D)) (defs : list (definition D)) : is_std_sort def_less sort -> is_std_sort def_less sort' -> Forall wf_def defs ->
  (forall a b, In a defs -> In b defs -> def_alike a b -> a = b) ->
  unique_sort_definitions sort defs = unique_sort_definitions sort' defs.
Proof.
  intros H H' W A. destruct (unique_sort_ok sort defs H W) as (o & E & I & S1 & S2). destruct (unique_sort_ok sort' defs H' W) as (o' & E' & I' & S1' & S2').
  rewrite E, E'. f_equal. rewrite Forall_forall in W.
  apply increasing_unique; [apply Forall_forall; auto|apply Forall_forall; auto|exact I|exact I'|].
  intros d. split; intros Hd.
  - destruct (S2' d (S1 d Hd)) as (e & He & Al). rewrite (A d e (S1 d Hd) (S1' e He) Al). exact He.
  - destruct (S2 d (S1' d Hd)) as (e & He & Al). rewrite (A d e (S1' d Hd) (S1 e He) Al). exact He.
Qed.
End Defs.
