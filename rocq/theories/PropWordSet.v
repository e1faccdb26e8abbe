(** Property C120: the dictionary that is written is that of a set of words. *)
From Verif Require Import Base BaseProofs SortModel SortProofs DatasModel UtfModel UtfSpec StreamModel DictIoModel TrieModel TrieSpec LearnModel LearnSpec ShowModel ProgModel DecodeSpec WordSetSpec WordSetProofs.

(** The program makes the same of two files, whatever their bytes, exactly if no dictionary
    can be made of either, or one can be made of both and they spell the same words, in any
    order and any number of times. *)
Theorem C120_exact : forall sort sort' disk disk' prog prog' names names' before text ls after before' text' ls' after',
  is_std_sort (list_ltb Z.ltb) sort -> is_std_sort (list_ltb Z.ltb) sort' ->
  map disk names = before ++ Some text :: after -> map disk' names' = before' ++ Some text' :: after' ->
  (forall f, In f before -> f = None) -> (forall f, In f before' -> f = None) -> text_lines text ls -> text_lines text' ls' ->
  octets text -> octets text' -> vsize text < 4294967296 -> vsize text' < 4294967296 ->
  (dictionary_main sort disk (prog :: names) = dictionary_main sort' disk' (prog' :: names') <-> same_dictionary ls ls').
Proof.
  intros sort sort' disk disk' prog prog' names names' before text ls after before' text' ls' after' Hs Hs' En En' Hb Hb' Ht Ht' O O' B B'.
  rewrite <- (dictionary_set sort sort' Hs Hs' before text ls after before' text' ls' after' Hb Hb' Ht Ht' O O' B B'), <- En, <- En'.
  destruct names as [|n ns]; [destruct before; discriminate|]. destruct names' as [|n' ns']; [destruct before'; discriminate|]. cbn [dictionary_main].
  destruct (dictionary_of_files sort (map disk (n :: ns))) as [o|e| |], (dictionary_of_files sort' (map disk' (n' :: ns'))) as [o'|e'| |]; cbn [bind]; split; congruence.
Qed.
Print Assumptions C120_exact.

(** For files of UTF-8 words that are not empty: what is printed is the same exactly if the
    words are the same ones. *)
Theorem C120_words : forall sort sort' before text ls after before' text' ls' after', is_std_sort (list_ltb Z.ltb) sort -> is_std_sort (list_ltb Z.ltb) sort' ->
  (forall f, In f before -> f = None) -> (forall f, In f before' -> f = None) -> text_lines text ls -> text_lines text' ls' -> octets text -> octets text' ->
  vsize text < 4294967296 -> vsize text' < 4294967296 -> Forall well_formed ls -> Forall well_formed ls' -> ~ In [] ls -> ~ In [] ls' ->
  (dictionary_of_files sort (before ++ Some text :: after) = dictionary_of_files sort' (before' ++ Some text' :: after') <-> forall w, In w ls <-> In w ls').
Proof. exact dictionary_words. Qed.
Print Assumptions C120_words.

(** Two words in another order, one of them twice, and one word only. *)
Definition ex_first : list Z := str "to" ++ [10] ++ str "at" ++ [10] ++ str "to".
Definition ex_second : list Z := str "at" ++ [10] ++ str "to" ++ [10].
Definition ex_third : list Z := str "at" ++ [10].
Definition ex_made (text : list Z) : res (list Z) := dictionary_of_files (isort (list_ltb Z.ltb)) [Some text].
Lemma ex_ascii w : forallb (fun c => (1 <=? c) && (c <? 128)) w = true -> well_formed w.
Proof.
  intros H. exists w. rewrite forallb_forall in H. split.
  - apply Forall_forall. intros c Hc. specialize (H c Hc). unfold is_char. lia.
  - unfold text_of. induction w as [|c w IH]; [reflexivity|]. cbn [flat_map]. rewrite <- IH by (intros x Hx; apply H; now right).
    pose proof (H c (or_introl eq_refl)). unfold encode. replace (c <? 128) with true by lia. reflexivity.
Qed.
Example C120_nonvacuous : text_lines ex_first [str "to"; str "at"; str "to"] /\ text_lines ex_second [str "at"; str "to"] /\ text_lines ex_third [str "at"] /\
  octets ex_first /\ octets ex_second /\ octets ex_third /\ Forall well_formed [str "to"; str "at"; str "to"] /\ ~ In [] [str "to"; str "at"; str "to"] /\
  (forall w, In w [str "to"; str "at"; str "to"] <-> In w [str "at"; str "to"]) /\ ~ (forall w, In w [str "to"; str "at"; str "to"] <-> In w [str "at"]) /\
  (exists out, ex_made ex_first = Ok out) /\ ex_made ex_first = ex_made ex_second /\ ex_made ex_first <> ex_made ex_third.
Proof.
  assert (L : forall l : list Z, forallb (fun c => negb (c =? 10)) l = true -> ~ In 10 l) by (intros l H X; rewrite forallb_forall in H; specialize (H 10 X); discriminate).
  assert (O : forall l, forallb (fun c => (0 <=? c) && (c <? 256)) l = true -> octets l).
  { intros l H. apply Forall_forall. intros c Hc. rewrite forallb_forall in H. specialize (H c Hc). lia. }
  split; [exists [str "to"; str "at"], (str "to"); split; [reflexivity|]; split; [|reflexivity]; intros l [<-|[<-|[<-|[]]]]; apply L; reflexivity|].
  split; [exists [str "at"; str "to"], []; split; [reflexivity|]; split; [|reflexivity]; intros l [<-|[<-|[<-|[]]]]; apply L; reflexivity|].
  split; [exists [str "at"], []; split; [reflexivity|]; split; [|reflexivity]; intros l [<-|[<-|[]]]; apply L; reflexivity|].
  split; [apply O; reflexivity|]. split; [apply O; reflexivity|]. split; [apply O; reflexivity|].
  split; [repeat constructor; apply ex_ascii; reflexivity|]. split; [intros [X|[X|[X|[]]]]; discriminate X|].
  split; [intros w; cbn [In]; tauto|]. split; [intros H; destruct (proj1 (H (str "to")) (or_introl eq_refl)) as [X|[]]; discriminate X|].
  split; [eexists; vm_compute; reflexivity|]. split; [vm_compute; reflexivity|]. vm_compute. discriminate.
Qed.

(** Other lines than UTF-8 words can be different and give the same dictionary: what
    follows a stray continuation byte is not read. *)
Theorem C120_bytes_refuted : exists text text' ls ls', text_lines text ls /\ text_lines text' ls' /\ octets text /\ octets text' /\ ~ (forall w, In w ls <-> In w ls') /\
  (exists out, ex_made text = Ok out) /\ ex_made text = ex_made text'.
Proof.
  exists [97; 128; 98], [97], [[97; 128; 98]], [[97]].
  split; [exists [], [97; 128; 98]; split; [reflexivity|]; split; [|reflexivity]; intros l [<-|[]] [X|[X|[X|[]]]]; discriminate X|].
  split; [exists [], [97]; split; [reflexivity|]; split; [|reflexivity]; intros l [<-|[]] [X|[]]; discriminate X|].
  split; [repeat constructor; lia|]. split; [repeat constructor; lia|].
  split; [intros H; destruct (proj2 (H [97]) (or_introl eq_refl)) as [X|[]]; discriminate X|].
  split; [eexists; vm_compute; reflexivity|]. vm_compute. reflexivity.
Qed.
Print Assumptions C120_bytes_refuted.
