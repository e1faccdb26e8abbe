From Verif Require Import Base BaseProofs ProofTools StreamModel StreamProofs GlyphIoSpec GlyphIoProofs GlyphFileSpec GlyphFileProofs
  ReplaceModel ReplaceProofs RulesTextSpec.

Definition rules_body : (list Z * list Z) * list (list Z * list Z) * istream ->
    res ((list Z * list Z) * list (list Z * list Z) * istream + list (list Z * list Z) * istream) :=
    (fun '(rep, rules, s) =>
       if is_ok s then
         let '(pattern, s) := get_word (fst rep) s in
         let '(replace, s) :=
           match is_rest s with
           | [] => (snd rep, s)
           | c :: _ => if c =? 10 then ([], s) else get_word (snd rep) s
           end in
         Ok (inl ((pattern, replace), if is_ok s then rules ++ [(pattern, replace)] else rules, s))
       else Ok (inr (rules, s))).

Lemma word_run old p w r : blank p -> plain_text w -> starts_blank r -> get_word old (on (p ++ w ++ r) false) = (w, on r (null r)).
Proof. intros B P Hr. apply plain_iff in P. destruct P as [N F]. apply get_word_written; [apply blank_spaces, B|exact N|exact F|exact Hr]. Qed.
Lemma word_none old t b : blank t -> ended_at t b -> exists s, get_word old (on t b) = (old, s) /\ is_fail s = true /\ is_eof s = true /\ is_rest s = [].
Proof.
  intros B He. destruct b; [rewrite (He eq_refl); eexists; split; [reflexivity|]; auto|].
  unfold get_word. rewrite (sentry_spaces t) by (apply blank_spaces, B). eexists. split; [reflexivity|]. auto.
Qed.

(** A failed stream ends the loop. *)
Lemma rules_done fuel rep rules s : is_fail s = true -> (0 < fuel)%nat -> loop fuel rules_body (rep, rules, s) = Ok (rules, s).
Proof. intros H Hf. destruct fuel as [|fuel]; [lia|]. cbn [loop]. unfold rules_body at 1. unfold is_ok. rewrite H. reflexivity. Qed.

Lemma rules_end before t b fuel pat rules : blank t -> ended_at t b -> (1 < fuel)%nat ->
  exists s, loop fuel rules_body ((pat, before), rules, on t b) = Ok (rules, s) /\ is_eof s = true /\ is_fail s = true.
Proof.
  intros B He Hf. destruct fuel as [|fuel]; [lia|]. cbn [loop]. unfold rules_body at 1. cbn [is_ok is_fail negb fst snd].
  destruct (word_none pat t b B He) as (s & -> & F & E & R). cbv iota beta zeta. rewrite R. unfold is_ok. rewrite F. cbn [negb].
  rewrite rules_done by (assumption || lia). exists s. auto.
Qed.

Lemma null_starts r : ended_at r (null r).
Proof. destruct r; intros X; [reflexivity|discriminate X]. Qed.

Lemma rules_run before t l : rules_in before t l -> forall b fuel pat rules, ended_at t b -> (S (List.length t) < fuel)%nat ->
  exists s, loop fuel rules_body ((pat, before), rules, on t b) = Ok (rules ++ l, s) /\ is_eof s = true /\ is_fail s = true.
Proof.
  induction 1 as [before t B|before p w B P|before p w r l B P R IH|before p w c q w' r l B P Hc N Bq P' Sr R IH|before p w c q B P Hc N Bq]; intros b fuel pat rules He Hf.
  - rewrite app_nil_r. apply rules_end; [exact B|exact He|lia].
  - destruct b.
    { specialize (He eq_refl). apply app_eq_nil in He. destruct He as [_ He]. destruct (proj1 P He). }
    destruct fuel as [|fuel]; [lia|]. cbn [loop]. unfold rules_body at 1. cbn [is_ok is_fail negb fst snd].
    pose proof (word_run pat p w [] B P I) as E. rewrite app_nil_r in E. rewrite E. cbn [is_rest is_ok is_fail negb null].
    assert (L : (0 < List.length (p ++ w))%nat) by (rewrite app_length; destruct w; [destruct (proj1 P eq_refl)|cbn; lia]).
    apply (rules_end before [] true fuel w (rules ++ [(w, before)])); [intros x []|intros _; reflexivity|lia].
  - destruct b.
    { specialize (He eq_refl). apply app_eq_nil in He. destruct He as [_ He]. apply app_eq_nil in He. destruct He as [_ He]. discriminate He. }
    destruct fuel as [|fuel]; [lia|]. cbn [loop]. unfold rules_body at 1. cbn [is_ok is_fail negb fst snd].
    rewrite (word_run pat p w (10 :: r) B P) by reflexivity. cbn [is_rest is_ok is_fail negb null]. rewrite Z.eqb_refl.
    destruct (IH false fuel w (rules ++ [(w, [])])) as (s & E & H); [intros X; discriminate X| |].
    { rewrite !app_length in Hf. destruct w; [destruct (proj1 P eq_refl)|]. cbn [List.length] in *. lia. }
    exists s. cbn [is_ok is_fail negb]. rewrite E, <- app_assoc. auto.
  - destruct b.
    { specialize (He eq_refl). apply app_eq_nil in He. destruct He as [_ He]. apply app_eq_nil in He. destruct He as [_ He]. discriminate He. }
    destruct fuel as [|fuel]; [lia|]. cbn [loop]. unfold rules_body at 1. cbn [is_ok is_fail negb fst snd].
    rewrite (word_run pat p w (c :: q ++ w' ++ r) B P) by exact Hc. cbn [is_rest is_ok is_fail negb null]. destruct (Z.eqb_spec c 10); [contradiction|].
    change (c :: q ++ w' ++ r) with ((c :: q) ++ w' ++ r).
    assert (Bc : blank (c :: q)) by (intros x [<-|Hx]; [exact Hc|exact (Bq x Hx)]).
    rewrite (word_run before (c :: q) w' r Bc P' Sr). cbn [is_ok is_fail negb].
    destruct (IH (null r) fuel w (rules ++ [(w, w')])) as (s & E & H); [apply null_starts| |].
    { rewrite !app_length in Hf. cbn [List.length] in Hf. rewrite !app_length in Hf. lia. }
    exists s. rewrite E, <- app_assoc. auto.
  - destruct b.
    { specialize (He eq_refl). apply app_eq_nil in He. destruct He as [_ He]. apply app_eq_nil in He. destruct He as [_ He]. discriminate He. }
    destruct fuel as [|fuel]; [lia|]. cbn [loop]. unfold rules_body at 1. cbn [is_ok is_fail negb fst snd].
    rewrite (word_run pat p w (c :: q) B P) by exact Hc. cbn [is_rest is_ok is_fail negb null]. destruct (Z.eqb_spec c 10); [contradiction|].
    destruct (word_none before (c :: q) false) as (s & -> & F & E & R); [intros x [<-|Hx]; [exact Hc|exact (Bq x Hx)]|intros X; discriminate X|].
    cbv iota beta zeta. unfold is_ok. rewrite F. cbn [negb]. rewrite rules_done by (assumption || lia). exists s. rewrite app_nil_r. auto.
Qed.

(** Every text has rules. *)
Lemma word_split t : blank t \/ exists p w r, blank p /\ plain_text w /\ t = p ++ w ++ r /\ starts_blank r.
Proof.
  destruct (get_word_cases t false) as [(p & w & r & B & P & E & Hr & _)|(B & _)]; [intros X; discriminate X| |left; exact B].
  right. exists p, w, r. auto.
Qed.
Lemma rules_exist : forall k t, (List.length t <= k)%nat -> forall before, exists l, rules_in before t l.
Proof.
  induction k as [|k IH]; intros t Hk before.
  { destruct t; [|cbn in Hk; lia]. exists []. apply ri_end. intros x []. }
  destruct (word_split t) as [B|(p & w & r & B & P & -> & Hr)]; [exists []; apply ri_end, B|].
  assert (Lw : (0 < List.length w)%nat) by (destruct w; [destruct (proj1 P eq_refl)|cbn; lia]).
  destruct r as [|c r]; [exists [(w, before)]; rewrite app_nil_r; apply ri_last; assumption|].
  rewrite !app_length in Hk. cbn [List.length] in Hk.
  destruct (Z.eq_dec c 10) as [->|N].
  { destruct (IH (10 :: r) ltac:(cbn [List.length]; lia) []) as (l & R). exists ((w, []) :: l). apply ri_alone; assumption. }
  destruct (word_split r) as [Bq|(q & w' & r' & Bq & P' & -> & Hr')].
  - exists []. apply ri_lost; assumption.
  - rewrite !app_length in Hk. destruct (IH r' ltac:(lia) w') as (l & R). exists ((w, w') :: l). apply ri_rule; assumption.
Qed.

Lemma rules_outcome text : exists rules s, rules_in [] text rules /\ (forall rules', rules_in [] text rules' -> rules' = rules) /\
  read_replacements (open_stream text) = Ok (rules, s) /\ is_eof s = true /\ is_fail s = true.
Proof.
  destruct (rules_exist (List.length text) text (le_n _) []) as (l & R).
  assert (G : forall l', rules_in [] text l' -> exists s, read_replacements (open_stream text) = Ok (l', s) /\ is_eof s = true /\ is_fail s = true).
  { intros l' R'. unfold read_replacements, open_stream. cbn [is_rest]. fold rules_body.
    exact (rules_run [] text l' R' false (S (S (List.length text))) [] [] ltac:(intros X; discriminate X) ltac:(lia)). }
  destruct (G l R) as (s & E & H). exists l, s. split; [exact R|]. split; [|auto].
  intros l' R'. destruct (G l' R') as (s' & E' & _). congruence.
Qed.
