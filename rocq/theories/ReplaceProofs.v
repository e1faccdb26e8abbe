(** Replacing texts and reading rules. *)
From Verif Require Import Base BaseProofs StreamModel StreamProofs GlyphIoSpec GlyphIoProofs TrieModel TrieProofs ReplaceModel ReplaceSpec.
From Coq Require Import Relation_Operators Operators_Properties.

Lemma starts_with_iff pat : forall s, starts_with pat s = true <-> exists v, s = pat ++ v.
Proof.
  induction pat as [|c pat IH]; intros s; cbn [starts_with]; [split; [exists s; reflexivity|reflexivity]|].
  destruct s as [|d s]; [split; [discriminate|intros (v & H); discriminate H]|]. rewrite andb_true_iff, Z.eqb_eq, IH. split.
  - intros (-> & v & ->). exists v. reflexivity.
  - intros (v & H). injection H as -> ->. split; [reflexivity|exists v; reflexivity].
Qed.
(** The first occurrence. *)
Definition first_occ (pat s u v : list Z) : Prop :=
  s = u ++ pat ++ v /\ forall u' v', s = u' ++ pat ++ v' -> (List.length u <= List.length u')%nat.
Lemma find_sub_spec pat : forall s i,
  match find_sub pat s i with
  | Some k => exists u v, first_occ pat s u v /\ k = i + vsize u
  | None => ~ occurs pat s
  end.
Proof.
  induction s as [|c s IH]; intros i; cbn [find_sub]; destruct (starts_with pat _) eqn:E.
  - apply starts_with_iff in E. destruct E as [v E]. exists [], v. split; [split; [exact E|cbn; lia]|unfold vsize; cbn; lia].
  - intros (u & v & H). assert (K : exists w, [] = pat ++ w).
    { destruct u; [exists v; exact H|discriminate H]. }
    apply starts_with_iff in K. congruence.
  - apply starts_with_iff in E. destruct E as [v E]. exists [], v. split; [split; [exact E|cbn; lia]|unfold vsize; cbn; lia].
  - assert (N : forall u' v', c :: s = u' ++ pat ++ v' -> exists u'', u' = c :: u'' /\ s = u'' ++ pat ++ v').
    { intros [|d u'] v' H; [exfalso; assert (K : starts_with pat (c :: s) = true) by (apply starts_with_iff; exists v'; exact H); congruence|].
      injection H as <- H. exists u'. split; [reflexivity|exact H]. }
    specialize (IH (i + 1)). destruct (find_sub pat s (i + 1)) as [k|].
    + destruct IH as (u & v & (Hs & Hf) & ->). exists (c :: u), v. split; [split; [rewrite Hs; reflexivity|]|rewrite vsize_cons; lia].
      intros u' v' H. destruct (N u' v' H) as (u'' & -> & H'). specialize (Hf _ _ H'). cbn. lia.
    + intros (u' & v' & H). destruct (N u' v' H) as (u'' & -> & H'). apply IH. exists u'', v'. exact H'.
Qed.

Section Rule.
Context (pat rep : list Z).
Definition body := (fun '(result, pos) =>
       match string_find result (fst (pat, rep)) pos with
       | Some pos => Ok (inl (string_replace result pos (vsize (fst (pat, rep))) (snd (pat, rep)), pos))
       | None => Ok (inr result)
       end) : list Z * Z -> res (list Z * Z + list Z).
Lemma body_cases p t : (~ occurs pat t /\ body (p ++ t, vsize p) = Ok (inr (p ++ t))) \/
  exists u v, first_occ pat t u v /\ body (p ++ t, vsize p) = Ok (inl ((p ++ u) ++ rep ++ v, vsize (p ++ u))).
Proof.
  unfold body, string_find. cbn [fst snd]. rewrite vsize_app. pose proof (vsize_nonneg t). rewrite (proj2 (Z.ltb_ge _ _)) by lia.
  assert (L : Z.to_nat (vsize p) = List.length p) by (unfold vsize; lia). rewrite L.
  rewrite skipn_app, skipn_all, Nat.sub_diag. cbn [skipn app]. pose proof (find_sub_spec pat t (vsize p)) as F.
  destruct (find_sub pat t (vsize p)) as [k|]; [right|left; split; [exact F|reflexivity]].
  destruct F as (u & v & (E & Hf) & ->). exists u, v. split; [split; assumption|]. rewrite vsize_app. do 3 f_equal.
  unfold string_replace. rewrite E. assert (L1 : Z.to_nat (vsize p + vsize u) = List.length (p ++ u)) by (rewrite app_length; unfold vsize; lia).
  assert (L2 : Z.to_nat (vsize p + vsize u + vsize pat) = List.length ((p ++ u) ++ pat)) by (rewrite !app_length; unfold vsize; lia).
  rewrite L1, L2. f_equal; [|f_equal].
  - rewrite app_assoc, firstn_app, firstn_all, Nat.sub_diag. cbn [firstn]. apply app_nil_r.
  - replace (p ++ u ++ pat ++ v) with (((p ++ u) ++ pat) ++ v) by (rewrite <- !app_assoc; reflexivity).
    rewrite skipn_app, skipn_all, Nat.sub_diag. reflexivity.
Qed.

(** * Termination *)
Lemma remaining_shrinks v u v' : ~ occurs pat rep -> rep ++ v = u ++ pat ++ v' -> (List.length v' < List.length v)%nat.
Proof.
  intros N E. destruct (le_lt_dec (List.length v) (List.length v')) as [L|L]; [exfalso|exact L].
  rewrite app_assoc in E. destruct (app_eq_app _ _ _ _ E) as [l [[E1 E2]|[E1 E2]]].
  - apply N. exists u, l. rewrite E1, <- app_assoc. reflexivity.
  - assert (List.length v = List.length l + List.length v')%nat by (rewrite E2, app_length; reflexivity).
    assert (l = []) by (destruct l; [reflexivity|cbn in *; lia]). subst l. apply N. exists u, []. rewrite app_nil_r in *. symmetry. exact E1.
Qed.
Definition rewrites_star := clos_refl_trans_1n (list Z) (rewrites pat rep).
Lemma loop_ends (Hn : ~ occurs pat rep) : forall fuel v p, (List.length v < fuel)%nat ->
  exists r, loop fuel body (p ++ rep ++ v, vsize p) = Ok r /\ rewrites_star (p ++ rep ++ v) r.
Proof.
  induction fuel as [|f IH]; intros v p Hf; [lia|]. cbn [loop]. destruct (body_cases p (rep ++ v)) as [[_ E]|(u & v' & (Ho & _) & E)]; rewrite E.
  - eexists. split; [reflexivity|constructor].
  - pose proof (remaining_shrinks v u v' Hn Ho). destruct (IH v' (p ++ u)) as (r & Er & Hr); [lia|]. exists r. split; [exact Er|].
    econstructor; [|exact Hr]. exists (p ++ u), v'. split; [rewrite Ho, <- app_assoc; reflexivity|reflexivity].
Qed.
Lemma rule_ends text fuel : ~ occurs pat text \/ ~ occurs pat rep -> (List.length text < fuel)%nat ->
  exists r, replace_rule fuel (pat, rep) text = Ok r /\ rewrites_star text r.
Proof.
  intros H Hf. unfold replace_rule. fold body. destruct fuel as [|f]; [lia|]. cbn [loop].
  destruct (body_cases [] text) as [[_ E]|(u & v & (Ho & _) & E)]; change (body ([] ++ text, vsize [])) with (body (text, 0)) in E; rewrite E.
  - eexists. split; [reflexivity|constructor].
  - destruct H as [H|H]; [destruct H; exists u, v; exact Ho|].
    assert (NP : pat <> []) by (intros ->; apply H; exists [], rep; reflexivity).
    destruct (loop_ends H f v u) as (r & Er & Hr).
    { rewrite Ho in Hf. rewrite !app_length in Hf. destruct pat; [congruence|cbn [List.length] in Hf; lia]. }
    exists r. cbn [app]. split; [exact Er|]. econstructor; [|exact Hr]. exists u, v. split; [exact Ho|reflexivity].
Qed.
Lemma rule_diverges text fuel : occurs pat text -> occurs pat rep -> replace_rule fuel (pat, rep) text = NoFuel.
Proof.
  intros Ht (ru & rv & Hr). unfold replace_rule. fold body.
  assert (G : forall fuel p v, loop fuel body (p ++ rep ++ v, vsize p) = NoFuel).
  { clear fuel. induction fuel as [|f IH]; intros p v; [reflexivity|]. cbn [loop].
    destruct (body_cases p (rep ++ v)) as [[N _]|(u & v' & (Ho & Hf) & E)].
    - exfalso. apply N. exists ru, (rv ++ v). rewrite Hr, <- !app_assoc. reflexivity.
    - rewrite E. apply IH. }
  destruct fuel as [|f]; [reflexivity|]. cbn [loop].
  destruct (body_cases [] text) as [[N _]|(u & v & (Ho & Hf) & E)]; [destruct (N Ht)|]. change (body ([] ++ text, vsize [])) with (body (text, 0)) in E. rewrite E. apply G.
Qed.

(** * The pattern is gone *)
Lemma straddle P (w : list Z) x y : no_overlap pat rep -> P ++ rep ++ w = x ++ pat ++ y -> (List.length x < List.length P)%nat ->
  exists z, P = x ++ pat ++ z.
Proof.
  intros N E L. destruct (app_eq_app _ _ _ _ E) as [a [[E1 E2]|[E1 E2]]].
  - destruct (app_eq_app _ _ _ _ (eq_sym E2)) as [b [[E3 E4]|[E3 E4]]].
    + exists b. rewrite E1, E3. reflexivity.
    + destruct b as [|c b]; [exists []; rewrite app_nil_r in *; rewrite E1, E3; reflexivity|]. exfalso.
      assert (a <> []) by (intros ->; rewrite app_nil_r in E1; subst; lia).
      destruct (N a (c :: b) E3 H ltac:(discriminate)) as [N1 N2].
      destruct (app_eq_app _ _ _ _ E4) as [d [[E5 E6]|[E5 E6]]]; [exact (N1 d E5)|exact (N2 d E5)].
  - exfalso. rewrite E1, app_length in L. lia.
Qed.
Definition none_before (P t : list Z) : Prop := forall x y, P ++ t = x ++ pat ++ y -> (List.length P <= List.length x)%nat.
Lemma none_before_step p t u v : no_overlap pat rep -> none_before p t -> first_occ pat t u v -> none_before (p ++ u) (rep ++ v).
Proof.
  intros N B (Ho & Hf) x y E. destruct (le_lt_dec (List.length (p ++ u)) (List.length x)) as [L|L]; [exact L|exfalso].
  destruct (straddle (p ++ u) v x y N E L) as [z Ez].
  assert (E' : p ++ t = x ++ pat ++ (z ++ pat ++ v)).
  { rewrite Ho. rewrite app_assoc, Ez, <- !app_assoc. reflexivity. }
  specialize (B _ _ E'). destruct (app_eq_app _ _ _ _ E') as [l [[E1 E2]|[E1 E2]]].
  - assert (L0 : l = []) by (rewrite E1, app_length in B; destruct l; [reflexivity|cbn in B; lia]). subst l. rewrite app_nil_r in E1. subst x. cbn [app] in E2.
    specialize (Hf [] _ (eq_sym E2)). destruct u; [|cbn in Hf; lia]. rewrite app_nil_r in L. lia.
  - specialize (Hf l _ E2). subst x. rewrite !app_length in L. lia.
Qed.
Lemma loop_gone : no_overlap pat rep -> forall fuel p t r, none_before p t -> loop fuel body (p ++ t, vsize p) = Ok r -> ~ occurs pat r.
Proof.
  intros N. induction fuel as [|f IH]; intros p t r B E; [discriminate E|]. cbn [loop] in E.
  destruct (body_cases p t) as [[No Eb]|(u & v & Ho & Eb)]; rewrite Eb in E.
  - injection E as <-. intros (x & y & Exy). specialize (B _ _ Exy). destruct (app_eq_app _ _ _ _ Exy) as [l [[E1 E2]|[E1 E2]]].
    + assert (L0 : l = []) by (rewrite E1, app_length in B; destruct l; [reflexivity|cbn in B; lia]). subst l. apply No. exists [], y. symmetry. exact E2.
    + apply No. exists l, y. exact E2.
  - exact (IH _ _ _ (none_before_step p t u v N B Ho) E).
Qed.
Lemma rule_gone text fuel r : no_overlap pat rep -> replace_rule fuel (pat, rep) text = Ok r -> ~ occurs pat r.
Proof. intros N E. apply (loop_gone N fuel [] text r); [intros x y _; cbn; lia|exact E]. Qed.
End Rule.

Theorem rule_ends_iff pat rep text :
  (exists fuel r, replace_rule fuel (pat, rep) text = Ok r) <-> ~ (occurs pat text /\ occurs pat rep).
Proof.
  split.
  - intros (fuel & r & E) [H1 H2]. rewrite (rule_diverges pat rep text fuel H1 H2) in E. discriminate E.
  - intros H. assert (D : forall a b : list Z, occurs a b \/ ~ occurs a b).
    { intros a b. pose proof (find_sub_spec a b 0) as F. destruct (find_sub a b 0); [left; destruct F as (u & v & (E & _) & _); exists u, v; exact E|right; exact F]. }
    exists (S (List.length text)). destruct (rule_ends pat rep text (S (List.length text))) as (r & E & _); [|lia|exists r; exact E].
    destruct (D pat text) as [A|A]; [right; intros B; apply H; split; assumption|left; exact A].
Qed.

Lemma loop_mono {St R : Type} (body : St -> res (St + R)) : forall n m s r, loop n body s = Ok r -> (n <= m)%nat -> loop m body s = Ok r.
Proof.
  induction n as [|n IH]; intros m s r E L; [discriminate E|]. destruct m as [|m]; [lia|]. cbn [loop] in *. destruct (body s) as [[s'|x]| | |]; try discriminate E; [|exact E].
  apply (IH m); [exact E|lia].
Qed.
Theorem words_end : forall rules text, (forall pat rep, In (pat, rep) rules -> ~ occurs pat rep) ->
  exists fuel r, replace_words fuel text rules = Ok r.
Proof.
  assert (M : forall rules n m text r, replace_words n text rules = Ok r -> (n <= m)%nat -> replace_words m text rules = Ok r).
  { induction rules as [|[pat rep] rules IH]; intros n m text r E L; [exact E|]. cbn [replace_words] in *.
    destruct (replace_rule n (pat, rep) text) as [t| | |] eqn:Er; try discriminate E. rewrite (loop_mono _ n m _ _ Er L : replace_rule m (pat, rep) text = Ok t).
    cbn [bind] in *. exact (IH n m t r E L). }
  induction rules as [|[pat rep] rules IH]; intros text H; [exists O, text; reflexivity|].
  destruct (rule_ends pat rep text (S (List.length text))) as (t & E & _); [right; apply H; left; reflexivity|lia|].
  destruct (IH t) as (f & r & Er); [intros p q I; apply H; right; exact I|].
  exists (Nat.max (S (List.length text)) f), r. cbn [replace_words].
  rewrite (loop_mono _ _ (Nat.max (S (List.length text)) f) _ _ E ltac:(lia) : replace_rule _ (pat, rep) text = Ok t). cbn [bind]. apply (M rules f); [exact Er|lia].
Qed.

(** * Reading rules *)
Lemma rules_length rules : (List.length rules <= List.length (rules_text rules))%nat.
Proof.
  induction rules as [|r rules IH]; [cbn; lia|]. unfold rules_text in *. cbn [flat_map List.length]. rewrite app_length. unfold rule_text at 1. rewrite !app_length. cbn [List.length]. lia.
Qed.
Lemma read_rules_written rules : Forall good_rule rules ->
  exists s, read_replacements (open_stream (rules_text rules)) = Ok (rules, s) /\ is_eof s = true.
Proof.
  intros HR. unfold read_replacements, open_stream. cbn [is_rest].
  match goal with |- exists s, loop ?n ?b _ = _ /\ _ => set (bd := b); set (fuel := n) end.
  assert (Hfuel : (S (List.length rules) < fuel)%nat) by (pose proof (rules_length rules); unfold fuel; lia). clearbody fuel.
  assert (G : forall rest done fuel old p, rules = done ++ rest -> spaces p -> (S (List.length rest) < fuel)%nat ->
    exists s, loop fuel bd (old, done, good (p ++ rules_text rest)) = Ok (rules, s) /\ is_eof s = true).
  { clear fuel Hfuel. induction rest as [|r rest IH]; intros done fuel old p E Sp Hf; (destruct fuel as [|fuel]; [lia|]); cbn [loop]; unfold bd at 1; cbn [is_ok is_fail negb].
    - cbn [rules_text flat_map]. rewrite app_nil_r. unfold get_word. rewrite sentry_spaces by exact Sp. cbn [is_rest is_ok is_fail negb].
      destruct fuel as [|fuel]; [lia|]. cbn [loop]. unfold bd at 1. cbn [is_ok is_fail negb]. eexists. split; [rewrite E, app_nil_r; reflexivity|reflexivity].
    - assert (Hr : good_rule r) by (rewrite Forall_forall in HR; apply HR; rewrite E; apply in_or_app; right; left; reflexivity). destruct Hr as [Hp Hq].
      unfold rules_text. cbn [flat_map]. fold (rules_text rest). unfold rule_text at 1. rewrite <- !app_assoc. cbn [List.length] in Hf. destruct r as [a b]. cbn [fst snd] in *.
      destruct Hq as [-> | Hq].
      + rewrite get_word_text by (try assumption; reflexivity). cbn [app is_rest]. rewrite Z.eqb_refl. cbn [is_ok is_fail negb].
        apply (IH (done ++ [(a, [])]) fuel (a, []) [10]); [rewrite <- app_assoc; exact E|apply spaces_1; reflexivity|lia].
      + destruct b as [|c b]; [destruct (proj1 Hq); reflexivity|].
        rewrite get_word_text by (try assumption; reflexivity). cbn [app is_rest]. change (32 =? 10) with false. cbn iota.
        change (32 :: c :: b ++ 10 :: rules_text rest) with ([32] ++ (c :: b) ++ (10 :: rules_text rest)).
        rewrite get_word_text by (try assumption; try (apply spaces_1); reflexivity). cbn [is_ok is_fail negb].
        apply (IH (done ++ [(a, c :: b)]) fuel (a, c :: b) [10]); [rewrite <- app_assoc; exact E|apply spaces_1; reflexivity|lia]. }
  destruct (G rules [] fuel ([], []) [] eq_refl (Forall_nil _) Hfuel) as (s & E & He). exists s. split; [exact E|exact He].
Qed.
