From Verif Require Import Base BaseProofs SortModel SortProofs DatasModel UtfModel UtfSpec UtfProofs DictIoModel DictIoSpec TrieModel TrieSpec TrieProofs FlatTrieProofs.
From Coq Require Import Permutation Sorted.

Lemma list_eqb_eq a b : list_eqb a b = true <-> a = b.
Proof.
  revert b. induction a as [|x a IH]; intros [|y b]; cbn [list_eqb]; split; try discriminate; try reflexivity.
  - rewrite andb_true_iff, Z.eqb_eq, IH. intros [-> ->]. reflexivity.
  - intros H. injection H as -> ->. rewrite Z.eqb_refl. apply IH. reflexivity.
Qed.

Lemma uniq_In l w : In w (uniq l) <-> In w l.
Proof.
  induction l as [|a l IH]; [reflexivity|]. cbn [uniq In]. rewrite <- IH. destruct (uniq l) as [|b r]; [reflexivity|].
  destruct (list_eqb a b) eqn:E; [|reflexivity]. apply list_eqb_eq in E. subst b. cbn [In]. tauto.
Qed.
Lemma uniq_letters l : letters (uniq l) <= letters l.
Proof.
  assert (C : forall a r, letters (a :: r) = vsize a + letters r) by (intros; unfold letters; cbn [List.concat]; apply vsize_app).
  induction l as [|a l IH]; [apply Z.le_refl|]. cbn [uniq]. rewrite C. destruct (uniq l) as [|b r].
  - rewrite C. lia.
  - destruct (list_eqb a b); rewrite ?C in *; [pose proof (vsize_nonneg b)|]; lia.
Qed.
Lemma uniq_sorted l : sorted_by (list_ltb Z.ltb) l -> StronglySorted lex_lt (uniq l).
Proof.
  unfold sorted_by. induction 1 as [|a l H IH F]; [constructor|]. cbn [uniq].
  assert (G : forall w, In w (uniq l) -> a = w \/ lex_lt a w).
  { intros w Hw. rewrite uniq_In in Hw. rewrite Forall_forall in F. specialize (F w Hw).
    destruct (lex_total a w) as [L|[->|L]]; [right; exact L|left; reflexivity|]. apply list_ltb_lex in L. congruence. }
  destruct (uniq l) as [|b r] eqn:Eu; [repeat constructor|].
  inversion IH as [|? ? S1 F1]; subst. rewrite Forall_forall in F1.
  destruct (list_eqb a b) eqn:E.
  - apply list_eqb_eq in E. subst b. constructor; [exact S1|]. apply Forall_forall. exact F1.
  - assert (Lab : lex_lt a b).
    { destruct (G b (or_introl eq_refl)) as [->|L]; [|exact L]. assert (list_eqb b b = true) by (apply list_eqb_eq; reflexivity). congruence. }
    constructor; [exact IH|]. apply Forall_forall. intros w [<-|Hw]; [exact Lab|]. apply lex_trans with b; [exact Lab|apply F1; exact Hw].
Qed.

Lemma letters_perm a b : Permutation a b -> letters a = letters b.
Proof.
  assert (C : forall a r, letters (a :: r) = vsize a + letters r) by (intros; unfold letters; cbn [List.concat]; apply vsize_app).
  induction 1; rewrite ?C; lia.
Qed.

Lemma encode_length c : 1 <= vsize (encode c).
Proof. unfold encode. destruct (c <? 128); [cbn; lia|]. destruct (c <? 2048); [cbn; lia|]. destruct (c <? 65536); cbn; lia. Qed.
Lemma text_length cs : vsize cs <= vsize (text_of cs).
Proof.
  unfold text_of. induction cs as [|c cs IH]; [cbn; lia|]. cbn [flat_map]. rewrite vsize_app, vsize_cons. pose proof (encode_length c). lia.
Qed.
Lemma text_of_inj a b : Forall is_char a -> Forall is_char b -> text_of a = text_of b -> a = b.
Proof. intros Ha Hb E. pose proof (unicode_codes_ok a Ha) as A. pose proof (unicode_codes_ok b Hb) as B. rewrite E in A. congruence. Qed.
Lemma packed_list_inj a : forall b, Forall is_char a -> Forall is_char b -> map packed a = map packed b -> a = b.
Proof.
  induction a as [|x a IH]; intros [|y b] Ha Hb E; try discriminate; [reflexivity|].
  inversion Ha; subst. inversion Hb; subst. cbn [map] in E. injection E as E1 E2. f_equal; [apply packed_inj; assumption|apply IH; assumption].
Qed.

Lemma map_res_codes words : Forall well_formed words ->
  exists css, Forall (Forall is_char) css /\ words = map text_of css /\ map_res utf8_codes words = Ok (map (map packed) css).
Proof.
  induction 1 as [|w words (cs & Hcs & ->) _ (css & H1 & -> & H3)]; [exists []; auto|].
  exists (cs :: css). split; [constructor; assumption|]. split; [reflexivity|].
  cbn [map_res]. rewrite (utf8_codes_ok cs Hcs). cbn [bind]. rewrite H3. reflexivity.
Qed.

Lemma codes_letters css : letters (map (map packed) css) <= letters (map text_of css).
Proof.
  induction css as [|cs css IH]; [apply Z.le_refl|]. cbn [map]. unfold letters in *. cbn [List.concat]. rewrite !vsize_app, vsize_map.
  pose proof (text_length cs). lia.
Qed.

(** The trie of a dictionary. *)
Lemma dictionary_trie sort words : is_std_sort (list_ltb Z.ltb) sort -> Forall well_formed words -> ~ In [] words ->
  letters words < 4294967296 ->
  exists css t nodes, Forall (Forall is_char) css /\ words = map text_of css /\
    make_dictionary sort words = Ok nodes /\ flatten t = Ok nodes /\ well_ordered t /\ trie_count t < 4294967296 /\
    (forall w, spells t w <-> In w (map (map packed) css)) /\
    exists l, make_trie l = Ok t /\ (forall w, In w l <-> In w (map (map packed) css)).
Proof.
  intros Hsort Hwf Hne HB. destruct (map_res_codes words Hwf) as (css & Hcs & -> & Er).
  unfold make_dictionary. rewrite Er. cbn [bind].
  destruct (Hsort (map (map packed) css) (list_ltb_strict_weak _)) as [Hp Hs].
  set (l := sort (map (map packed) css)) in *. clearbody l.
  assert (HL : letters (uniq l) < 4294967296).
  { pose proof (uniq_letters l). pose proof (codes_letters css). rewrite <- (letters_perm _ _ Hp) in *. lia. }
  destruct (make_trie_ok (uniq l)) as (t & Et & Ot & St & _ & Ct).
  - apply uniq_sorted. exact Hs.
  - rewrite uniq_In. intros Hin. apply (Permutation_in _ (Permutation_sym Hp)) in Hin. apply in_map_iff in Hin. destruct Hin as (cs & E & Hin).
    apply Hne. apply in_map_iff. exists cs. split; [|exact Hin]. destruct cs; [reflexivity|discriminate].
  - intros w Hw. pose proof (length_le_letters _ _ Hw). lia.
  - rewrite Et. cbn [bind]. destruct (flatten_correct t) as (nodes & En & _); [lia|].
    exists css, t, nodes. split; [exact Hcs|]. split; [reflexivity|]. split; [exact En|]. split; [exact En|]. split; [exact Ot|]. split; [lia|].
    assert (P : forall w, In w (uniq l) <-> In w (map (map packed) css)).
    { intros w. rewrite uniq_In. split; apply Permutation_in; [apply Permutation_sym; exact Hp|exact Hp]. }
    split; [|exists (uniq l); split; [exact Et|exact P]].
    intros w. rewrite St. apply P.
Qed.

Lemma codes_in css cs : Forall (Forall is_char) css -> Forall is_char cs ->
  (In (map packed cs) (map (map packed) css) <-> In (text_of cs) (map text_of css)).
Proof.
  intros Hcss Hcs. rewrite Forall_forall in Hcss. split; intros H; apply in_map_iff in H; destruct H as (x & E & Hx).
  - apply packed_list_inj in E; [subst x; apply in_map; exact Hx|apply Hcss; exact Hx|exact Hcs].
  - apply text_of_inj in E; [subst x; apply in_map; exact Hx|apply Hcss; exact Hx|exact Hcs].
Qed.

Lemma dictionary_contains sort words : is_std_sort (list_ltb Z.ltb) sort -> Forall well_formed words -> ~ In [] words ->
  letters words < 4294967296 ->
  exists nodes, make_dictionary sort words = Ok nodes /\ links_inside nodes /\
    forall w, well_formed w -> exists codes b, utf8_codes w = Ok codes /\ contains nodes codes = Ok b /\ (b = true <-> In w words).
Proof.
  intros Hsort Hwf Hne HB. destruct (dictionary_trie sort words Hsort Hwf Hne HB) as (css & t & nodes & Hcs & -> & Em & En & Ot & Ct & St & _).
  exists nodes. split; [exact Em|]. destruct (flatten_correct t Ct) as (nodes' & En' & _ & Hl & _ & _ & _ & Hc).
  assert (nodes' = nodes) by congruence. subst nodes'. split; [exact Hl|].
  intros w (cs & Hc' & ->). exists (map packed cs). destruct (Hc Ot (map packed cs)) as (b & Eb & Hb). exists b.
  split; [apply utf8_codes_ok; exact Hc'|]. split; [exact Eb|]. rewrite Hb, St. apply codes_in; assumption.
Qed.

(** An empty word: its first code is read. *)
Lemma uniq_head a l : exists r, uniq (a :: l) = a :: r.
Proof. cbn [uniq]. destruct (uniq l) as [|b r]; [eauto|]. destruct (list_eqb a b); eauto. Qed.
Lemma dictionary_empty_word sort words : is_std_sort (list_ltb Z.ltb) sort -> Forall well_formed words -> In [] words ->
  make_dictionary sort words = UB.
Proof.
  intros Hsort Hwf Hin. destruct (map_res_codes words Hwf) as (css & Hcs & -> & Er).
  unfold make_dictionary. rewrite Er. cbn [bind].
  destruct (Hsort (map (map packed) css) (list_ltb_strict_weak _)) as [Hp Hs].
  assert (Hin' : In [] (sort (map (map packed) css))).
  { apply (Permutation_in _ Hp). apply in_map_iff in Hin. destruct Hin as (cs & E & Hc). apply in_map_iff. exists cs. split; [|exact Hc].
    destruct cs as [|c cs]; [reflexivity|]. pose proof (text_length (c :: cs)) as L. rewrite E, vsize_cons in L. pose proof (vsize_nonneg cs). change (vsize (@nil Z)) with 0 in L. lia. }
  set (l := sort (map (map packed) css)) in *. clearbody l.
  assert (exists r, uniq l = [] :: r) as (r & ->).
  { destruct l as [|h l]; [destruct Hin'|]. destruct h as [|x h]; [apply uniq_head|]. exfalso.
    destruct Hin' as [E|Hin']; [discriminate|]. inversion Hs as [|? ? _ F]; subst. rewrite Forall_forall in F. specialize (F [] Hin'). discriminate. }
  unfold make_trie. cbn [insert_after]. rewrite vsize_cons. pose proof (vsize_nonneg r).
  destruct (Z.eqb_spec 0 (1 + vsize r)); [lia|]. reflexivity.
Qed.
