(** The dictionary that is written depends on the set of words and tells it. *)
From Verif Require Import Base BaseProofs SortModel SortProofs DatasModel UtfModel UtfSpec UtfProofs StreamModel StreamProofs DictIoModel DictIoSpec DictIoProofs
  TrieModel TrieSpec TrieProofs FlatTrieProofs DictionaryProofs LearnModel LearnSpec LearnProofs LearnProofs2 DecodeSpec DecodeProofs DecodeProofs2 WordSetSpec.
From Coq Require Import Permutation Sorted.

(** * The values of characters tell the characters *)
Lemma value_inj g g' : whole g -> octets g -> whole g' -> octets g' -> value g = value g' -> g = g'.
Proof.
  intros W O W' O'. unfold value.
  destruct (group_cases g W O) as [(b & -> & Hb)|[(b & s0 & -> & Hb & H0)|[(b & s0 & s1 & -> & Hb & H0 & H1)|(b & s0 & s1 & s2 & -> & Hb & H0 & H1 & H2)]]];
  destruct (group_cases g' W' O') as [(b' & -> & Hb')|[(b' & s0' & -> & Hb' & H0')|[(b' & s0' & s1' & -> & Hb' & H0' & H1')|(b' & s0' & s1' & s2' & -> & Hb' & H0' & H1' & H2')]]];
    cbn [fold_left]; intros E; first [exfalso; lia | repeat (apply f_equal2; [lia|]); reflexivity].
Qed.
Lemma values_inj : forall gs gs', Forall whole gs -> Forall octets gs -> Forall whole gs' -> Forall octets gs' -> values gs = values gs' -> gs = gs'.
Proof.
  induction gs as [|g gs IH]; intros [|g' gs'] W O W' O' E; try discriminate; [reflexivity|].
  inversion W; inversion O; inversion W'; inversion O'; subst. unfold values in E. cbn [map] in E.
  assert (E1 : value g = value g') by congruence. assert (E2 : map value gs = map value gs') by congruence.
  f_equal; [now apply value_inj|apply IH; assumption].
Qed.
Lemma characters_octets l gs : octets l -> characters l gs -> Forall whole gs /\ Forall octets gs.
Proof.
  intros O (W & r & -> & _). split; [exact W|]. apply octets_app in O as (O & _). apply Forall_forall. intros g Hg. exact (whole_octets gs g O Hg).
Qed.
Lemma characters_values l l' gs gs' : octets l -> octets l' -> characters l gs -> characters l' gs' -> values gs = values gs' -> gs = gs'.
Proof.
  intros O O' C C'. destruct (characters_octets l gs O C), (characters_octets l' gs' O' C'). now apply values_inj.
Qed.
Lemma characters_unique l gs gs' : octets l -> characters l gs -> characters l gs' -> gs = gs'.
Proof.
  intros O C C'. apply (characters_values l l gs gs' O O C C'). destruct (decode_outcome l O) as (D & _). pose proof (D gs C) as A. rewrite (D gs' C') in A. congruence.
Qed.
Lemma usable_not ls gss : Forall octets ls -> Forall2 characters ls gss -> ~ In [] gss -> ~ Exists unusable ls.
Proof.
  intros O F N X. apply Exists_exists in X as (l & Hl & U). rewrite Forall_forall in O. specialize (O l Hl).
  destruct (F2_In_l _ _ _ l F Hl) as (gs & Hg & C). destruct U as [U|U].
  - destruct (decode_outcome l O) as (D1 & D2 & _). rewrite (D1 gs C) in D2. discriminate (D2 U).
  - apply N. now rewrite (characters_unique l [] gs O U C).
Qed.

(** * Sorted lists without repetition *)
Lemma lex_sorted_same : forall l l', StronglySorted lex_lt l -> StronglySorted lex_lt l' -> (forall w, In w l <-> In w l') -> l = l'.
Proof.
  assert (IR : forall a, ~ lex_lt a a) by (intros a H; apply list_ltb_lex in H; rewrite (proj1 (list_ltb_strict_weak [a]) a (or_introl eq_refl)) in H; discriminate).
  induction l as [|a l IH]; intros [|b l'] S S' E; [reflexivity|destruct (proj2 (E b) (or_introl eq_refl))|destruct (proj1 (E a) (or_introl eq_refl))|].
  inversion S as [|? ? S1 F1]; inversion S' as [|? ? S2 F2]; subst. rewrite Forall_forall in F1, F2.
  assert (a = b) as ->.
  { destruct (proj1 (E a) (or_introl eq_refl)) as [->|Ha]; [reflexivity|]. destruct (proj2 (E b) (or_introl eq_refl)) as [->|Hb]; [reflexivity|].
    destruct (IR a). exact (lex_trans _ _ _ (F1 b Hb) (F2 a Ha)). }
  f_equal. apply (IH l' S1 S2). intros w. split; intros H.
  - destruct (proj1 (E w) (or_intror H)) as [->|H']; [destruct (IR w); now apply F1|exact H'].
  - destruct (proj2 (E w) (or_intror H)) as [->|H']; [destruct (IR w); now apply F2|exact H'].
Qed.
Lemma uniq_sort_same sort sort' l l' : is_std_sort (list_ltb Z.ltb) sort -> is_std_sort (list_ltb Z.ltb) sort' -> (forall w, In w l <-> In w l') -> uniq (sort l) = uniq (sort' l').
Proof.
  intros H H' E. destruct (H l (list_ltb_strict_weak l)) as (P & S). destruct (H' l' (list_ltb_strict_weak l')) as (P' & S').
  apply lex_sorted_same; [now apply uniq_sorted|now apply uniq_sorted|]. intros w. rewrite !uniq_In. split; intros X.
  - apply (Permutation_in _ P'), E. exact (Permutation_in _ (Permutation_sym P) X).
  - apply (Permutation_in _ P), E. exact (Permutation_in _ (Permutation_sym P') X).
Qed.

(** * The dictionary of any lines *)
Section Two.
Context (sort sort' : list (list Z) -> list (list Z)) (Hs : is_std_sort (list_ltb Z.ltb) sort) (Hs' : is_std_sort (list_ltb Z.ltb) sort').

Lemma spelled_values ls gss : Forall octets ls -> Forall2 characters ls gss -> forall gs, (exists l, In l ls /\ characters l gs) <-> In gs gss.
Proof.
  intros O F gs. split.
  - intros (l & Hl & C). destruct (F2_In_l _ _ _ l F Hl) as (gs' & Hg & C'). rewrite Forall_forall in O. now rewrite (characters_unique l gs gs' (O l Hl) C C').
  - intros Hg. exact (F2_In_r _ _ _ gs F Hg).
Qed.
Lemma spellings_values ls ls' gss gss' : Forall octets ls -> Forall octets ls' -> Forall2 characters ls gss -> Forall2 characters ls' gss' ->
  (same_spellings ls ls' <-> forall c, In c (map values gss) <-> In c (map values gss')).
Proof.
  intros O O' F F'. unfold same_spellings. split.
  - intros E c. rewrite !in_map_iff. split; intros (gs & <- & Hg); exists gs; (split; [reflexivity|]).
    + apply (spelled_values ls' gss' O' F'), E, (spelled_values ls gss O F). exact Hg.
    + apply (spelled_values ls gss O F), E, (spelled_values ls' gss' O' F'). exact Hg.
  - intros E gs. rewrite (spelled_values ls gss O F), (spelled_values ls' gss' O' F').
    assert (G : forall a b A B, Forall octets A -> Forall octets B -> Forall2 characters A a -> Forall2 characters B b -> (forall c, In c (map values a) -> In c (map values b)) -> In gs a -> In gs b).
    { intros a b A B OA OB FA FB H Hg. destruct (proj1 (in_map_iff _ _ _) (H _ (in_map values a gs Hg))) as (gs' & Ev & Hg').
      destruct (F2_In_r _ _ _ gs FA Hg) as (x & Hx & Cx). destruct (F2_In_r _ _ _ gs' FB Hg') as (y & Hy & Cy). rewrite Forall_forall in OA, OB.
      now rewrite <- (characters_values y x gs' gs (OB y Hy) (OA x Hx) Cy Cx Ev). }
    split; [apply (G gss gss' ls ls')|apply (G gss' gss ls' ls)]; try assumption; intros c; apply E.
Qed.

Theorem dictionary_set before text ls after before' text' ls' after' : (forall f, In f before -> f = None) -> (forall f, In f before' -> f = None) ->
  text_lines text ls -> text_lines text' ls' -> octets text -> octets text' -> vsize text < 4294967296 -> vsize text' < 4294967296 ->
  (dictionary_of_files sort (before ++ Some text :: after) = dictionary_of_files sort' (before' ++ Some text' :: after') <-> same_dictionary ls ls').
Proof.
  intros Hb Hb' Ht Ht' O O' B B'. destruct (lines_octets text ls Ht O) as (Ol & Ll). destruct (lines_octets text' ls' Ht' O') as (Ol' & Ll').
  unfold dictionary_of_files. rewrite (words_first before text ls after Hb Ht), (words_first before' text' ls' after' Hb' Ht'). cbn [bind].
  destruct (usable_cases ls Ol) as [X|(gss & F & N)], (usable_cases ls' Ol') as [X'|(gss' & F' & N')].
  - rewrite (dictionary_unusable sort ls Hs Ol X), (dictionary_unusable sort' ls' Hs' Ol' X'). cbn [bind]. split; [intros _; left; split; assumption|reflexivity].
  - rewrite (dictionary_unusable sort ls Hs Ol X). destruct (dictionary_values sort' ls' gss' Hs' Ol' ltac:(lia) F' N') as (nodes & -> & _). cbn [bind].
    split; [discriminate|]. intros [(_ & Y)|(Y & _)]; [destruct (usable_not ls' gss' Ol' F' N' Y)|contradiction].
  - rewrite (dictionary_unusable sort' ls' Hs' Ol' X'). destruct (dictionary_values sort ls gss Hs Ol ltac:(lia) F N) as (nodes & -> & _). cbn [bind].
    split; [discriminate|]. intros [(Y & _)|(_ & Y & _)]; [destruct (usable_not ls gss Ol F N Y)|contradiction].
  - destruct (dictionary_values sort ls gss Hs Ol ltac:(lia) F N) as (nodes & E & _ & C). destruct (dictionary_values sort' ls' gss' Hs' Ol' ltac:(lia) F' N') as (nodes' & E' & _ & C').
    rewrite E, E'. cbn [bind]. pose proof (spellings_values ls ls' gss gss' Ol Ol' F F') as SV. split.
    + intros W. right. split; [exact (usable_not ls gss Ol F N)|]. split; [exact (usable_not ls' gss' Ol' F' N')|]. apply SV.
      assert (W' : write_dict nodes = write_dict nodes') by congruence.
      assert (nodes = nodes') as <-.
      { pose proof (dict_file_round_trip nodes (values_storable sort ls gss nodes Hs Ol ltac:(lia) F N E)) as R.
        rewrite W', (dict_file_round_trip nodes' (values_storable sort' ls' gss' nodes' Hs' Ol' ltac:(lia) F' N' E')) in R. congruence. }
      intros c. destruct (C c) as (b & Eb & Hc). destruct (C' c) as (b' & Eb' & Hc'). rewrite Eb in Eb'. assert (b = b') as <- by congruence. now rewrite <- Hc, <- Hc'.
    + intros [(Y & _)|(_ & _ & S)]; [destruct (usable_not ls gss Ol F N Y)|]. rewrite SV in S.
      unfold make_dictionary in E, E'. rewrite (codes_of ls gss Ol F) in E. rewrite (codes_of ls' gss' Ol' F') in E'. cbn [bind] in E, E'.
      rewrite (uniq_sort_same sort sort' _ _ Hs Hs' S) in E. rewrite E in E'. congruence.
Qed.
End Two.

(** * UTF-8 *)
Lemma encode_whole c : is_char c -> whole (encode c) /\ octets (encode c).
Proof.
  intros ((L & U) & _). unfold encode, octets.
  assert (M : forall x, 0 <= x mod 64 < 64) by (intros; apply Z.mod_pos_bound; lia).
  destruct (c <? 128) eqn:E1; [|destruct (c <? 2048) eqn:E2; [|destruct (c <? 65536) eqn:E3]].
  - split; [exists c, []; split; [reflexivity|]; split; [unfold stopper; lia|unfold takes; replace (c <? 192) with true by lia; reflexivity]|repeat constructor; lia].
  - assert (D : 2 <= c / 64 < 32) by (split; [apply Z.div_le_lower_bound; lia|apply Z.div_lt_upper_bound; lia]).
    split; [eexists _, _; split; [reflexivity|]; split; [unfold stopper; lia|unfold takes; replace (_ <? 192) with false by lia; replace (_ <? 224) with true by lia; reflexivity]|].
    pose proof (M c). repeat (constructor; [lia|]). constructor.
  - assert (D : 0 <= c / 4096 < 16) by (split; [apply Z.div_pos; lia|apply Z.div_lt_upper_bound; lia]).
    split; [eexists _, _; split; [reflexivity|]; split; [unfold stopper; lia|unfold takes; replace (_ <? 192) with false by lia; replace (_ <? 224) with false by lia; replace (_ <? 240) with true by lia; reflexivity]|].
    pose proof (M c). pose proof (M (c / 64)). repeat (constructor; [lia|]). constructor.
  - assert (D : 0 <= c / 262144 < 5) by (split; [apply Z.div_pos; lia|apply Z.div_lt_upper_bound; lia]).
    split; [eexists _, _; split; [reflexivity|]; split; [unfold stopper; lia|unfold takes; replace (_ <? 192) with false by lia; replace (_ <? 224) with false by lia; replace (_ <? 240) with false by lia; reflexivity]|].
    pose proof (M c). pose proof (M (c / 64)). pose proof (M (c / 4096)). repeat (constructor; [lia|]). constructor.
Qed.
Lemma word_characters w : well_formed w -> octets w /\ forall gs, characters w gs <-> (Forall (fun g => exists c, is_char c /\ g = encode c) gs /\ List.concat gs = w).
Proof.
  intros (cs & F & ->).
  assert (K : forall gs, Forall (fun g => exists c, is_char c /\ g = encode c) gs -> Forall whole gs /\ octets (List.concat gs)).
  { induction 1 as [|g gs (c & Hc & ->) _ (I1 & I2)]; [split; constructor|]. destruct (encode_whole c Hc) as (A & B). split; [now constructor|]. cbn [List.concat]. apply octets_app. split; assumption. }
  assert (M : Forall (fun g => exists c, is_char c /\ g = encode c) (map encode cs) /\ List.concat (map encode cs) = text_of cs).
  { split; [|unfold text_of; symmetry; apply flat_map_concat_map]. clear - F. induction F as [|c cs Hc _ IH]; constructor; [exists c; split; [exact Hc|reflexivity]|exact IH]. }
  assert (O : octets (text_of cs)) by (rewrite <- (proj2 M); exact (proj2 (K _ (proj1 M)))).
  assert (R : forall gs, Forall (fun g => exists c, is_char c /\ g = encode c) gs -> List.concat gs = text_of cs -> characters (text_of cs) gs).
  { intros gs G E. split; [exact (proj1 (K gs G))|]. exists []. rewrite app_nil_r. split; [now symmetry|now left]. }
  split; [exact O|]. intros gs. split; [|intros (G & E); now apply R].
  intros C. rewrite (characters_unique _ gs (map encode cs) O C (R _ (proj1 M) (proj2 M))). exact M.
Qed.
Lemma well_usable ls : Forall well_formed ls -> ~ In [] ls -> ~ Exists unusable ls.
Proof.
  intros F N X. apply Exists_exists in X as (w & Hw & U). rewrite Forall_forall in F. destruct (word_characters w (F w Hw)) as (O & C). destruct U as [U|U].
  - destruct (F w Hw) as (cs & Hc & E). destruct (decode_outcome w O) as (D1 & D2 & _).
    assert (A : characters w (map encode cs)).
    { apply C. split; [|rewrite E; unfold text_of; symmetry; apply flat_map_concat_map]. clear - Hc. induction Hc as [|c cs Hc _ IH]; constructor; [exists c; split; [exact Hc|reflexivity]|exact IH]. }
    rewrite (D1 _ A) in D2. discriminate (D2 U).
  - apply C in U as (_ & E). cbn in E. subst w. contradiction.
Qed.
Lemma well_spellings ls ls' : Forall well_formed ls -> Forall well_formed ls' -> (same_spellings ls ls' <-> forall w, In w ls <-> In w ls').
Proof.
  intros F F'. rewrite Forall_forall in F, F'. split.
  - intros S.
    assert (G : forall A B, (forall w, In w A -> well_formed w) -> (forall w, In w B -> well_formed w) -> (forall gs, (exists l, In l A /\ characters l gs) -> exists l, In l B /\ characters l gs) -> forall w, In w A -> In w B).
    { intros A B FA FB H w Hw. destruct (FA w Hw) as (cs & Hc & E). destruct (word_characters w (FA w Hw)) as (_ & C).
      assert (X : characters w (map encode cs)).
      { apply C. split; [|rewrite E; unfold text_of; symmetry; apply flat_map_concat_map]. clear - Hc. induction Hc as [|c cs Hc _ IH]; constructor; [exists c; split; [exact Hc|reflexivity]|exact IH]. }
      destruct (H _ (ex_intro _ w (conj Hw X))) as (l & Hl & Cl). apply (proj2 (word_characters l (FB l Hl))) in Cl as (_ & El). apply C in X as (_ & Ew). now rewrite <- Ew, El. }
    intros w. split; apply G; try assumption; intros gs; apply S.
  - intros E gs. split; intros (l & Hl & C); exists l; (split; [now apply E|exact C]).
Qed.
Theorem dictionary_words sort sort' before text ls after before' text' ls' after' : is_std_sort (list_ltb Z.ltb) sort -> is_std_sort (list_ltb Z.ltb) sort' ->
  (forall f, In f before -> f = None) -> (forall f, In f before' -> f = None) -> text_lines text ls -> text_lines text' ls' -> octets text -> octets text' -> vsize text < 4294967296 -> vsize text' < 4294967296 ->
  Forall well_formed ls -> Forall well_formed ls' -> ~ In [] ls -> ~ In [] ls' ->
  (dictionary_of_files sort (before ++ Some text :: after) = dictionary_of_files sort' (before' ++ Some text' :: after') <-> forall w, In w ls <-> In w ls').
Proof.
  intros Hs Hs' Hb Hb' Ht Ht' O O' B B' F F' N N'. rewrite (dictionary_set sort sort' Hs Hs' before text ls after before' text' ls' after' Hb Hb' Ht Ht' O O' B B').
  rewrite <- (well_spellings ls ls' F F'). pose proof (well_usable ls F N). pose proof (well_usable ls' F' N'). unfold same_dictionary. tauto.
Qed.
