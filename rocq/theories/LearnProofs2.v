From Verif Require Import Base BaseProofs SortModel SortProofs DatasModel UtfModel UtfSpec UtfProofs StreamModel StreamProofs DictIoModel DictIoSpec DictIoProofs TrieModel TrieSpec TrieProofs FlatTrieProofs DictionaryProofs LearnModel LearnSpec LearnProofs.
From Coq Require Import Permutation Sorted.

(** The values of the nodes of a trie are codes of its words. *)
Inductive valued (P : Z -> Prop) : tnode -> Prop :=
| Valued v b kids : P v -> (forall k, In k kids -> valued P k) -> valued P (TN v b kids).

Lemma insert_after_valued (P : Z -> Prop) words : (forall w c, In w words -> In c w -> P c) -> forall fuel first last depth nodes t,
  insert_after fuel words first last depth nodes = Ok t -> (forall n, In n nodes -> valued P n) -> forall n, In n t -> valued P n.
Proof.
  intros HP. induction fuel as [|fuel IH]; intros first last depth nodes t H HN; [discriminate|]. cbn [insert_after] in H.
  destruct (first =? last); [injection H as <-; exact HN|].
  destruct (rd words first) as [w| | |] eqn:Ew; try discriminate. cbn [bind] in H.
  destruct (rd w depth) as [c| | |] eqn:Ec; try discriminate. cbn [bind] in H.
  match type of H with bind ?p _ = _ => destruct p as [middle| | |]; try discriminate end. cbn [bind] in H.
  match type of H with bind ?p _ = _ => destruct p as [sub| | |] eqn:Es; try discriminate end. cbn [bind] in H.
  refine (IH _ _ _ _ _ H _). intros n Hn. apply in_app_or in Hn. destruct Hn as [Hn|[<-|[]]]; [exact (HN n Hn)|].
  constructor.
  - apply (HP w c); [apply rd_In with first; exact Ew|apply rd_In with depth; exact Ec].
  - exact (IH _ _ _ _ _ Es (fun k F => match F with end)).
Qed.

Lemma nth_split {A} (l : list A) i x : nth_error l i = Some x -> exists a b, l = a ++ x :: b /\ List.length a = i.
Proof. apply nth_error_split. Qed.
Lemma flat_map_at {A B} (f : A -> list B) l : forall i x, nth_error (flat_map f l) i = Some x ->
  exists X n Y, l = X ++ n :: Y /\ In x (f n) /\ (List.length (flat_map f X) <= i)%nat.
Proof.
  induction l as [|a l IH]; intros i x H; [destruct i; discriminate|]. cbn [flat_map] in H.
  destruct (Nat.lt_ge_cases i (List.length (f a))) as [L|L].
  - rewrite nth_error_app1 in H by exact L. exists [], a, l. split; [reflexivity|]. split; [apply nth_error_In with i; exact H|cbn; lia].
  - rewrite nth_error_app2 in H by exact L. destruct (IH _ _ H) as (X & n & Y & -> & Hin & HL). exists (a :: X), n, Y.
    split; [reflexivity|]. split; [exact Hin|]. cbn [flat_map]. rewrite app_length. lia.
Qed.
(** All the nodes of a flattened trie come from it. *)
Lemma flat_valued (P : Z -> Prop) root E es : E = root ++ flat_map tkids E -> done root E es -> (forall n, In n root -> valued P n) -> forall n, In n E -> valued P n.
Proof.
  intros HE [_ D] HR. assert (G : forall i n, nth_error E i = Some n -> valued P n).
  { intros i. induction i as [i IH] using (well_founded_induction lt_wf). intros n Hn.
    destruct (Nat.lt_ge_cases i (List.length root)) as [L|L].
    - rewrite HE, nth_error_app1 in Hn by exact L. apply HR. apply nth_error_In with i. exact Hn.
    - rewrite HE, nth_error_app2 in Hn by exact L. destruct (flat_map_at _ _ _ _ Hn) as (X & m & Y & EX & Hin & HL).
      destruct (D X m Y EX) as [_ D2]. unfold start, vsize in D2.
      assert (V : valued P m). { apply (IH (List.length X)); [lia|]. rewrite EX, nth_error_app2, Nat.sub_diag by lia. reflexivity. }
      inversion V; subst m. apply H0. exact Hin. }
  intros n Hn. apply In_nth_error in Hn. destruct Hn as (i & Hi). exact (G i n Hi).
Qed.
Lemma flatten_storable root nodes : (forall n, In n root -> valued (fun v => 0 <= v < 4294967296) n) -> flatten root = Ok nodes -> Forall storable_node nodes.
Proof.
  intros HR HF. destruct (flatten_ok root) as (E & es & F & HE & HD & _). assert (es = nodes) by congruence. subst es.
  apply Forall_forall. intros e He. apply In_nth_error in He. destruct He as (i & Hi).
  pose proof (flat_valued _ _ _ _ HE HD HR) as V. destruct HD as [L D].
  assert (Hi' : (i < List.length E)%nat) by (rewrite <- L; apply nth_error_Some; congruence).
  destruct (nth_error E i) as [n|] eqn:En; [|apply nth_error_None in En; lia].
  destruct (nth_split _ _ _ En) as (X & Y & EX & LX). destruct (D X n Y EX) as [D1 _]. rewrite LX, Hi in D1. injection D1 as ->.
  assert (Vn : valued (fun v => 0 <= v < 4294967296) n) by (apply V; rewrite EX; apply in_elt).
  inversion Vn; subst n. unfold storable_node, placed. cbn [fn_char fn_pos fn_count tvalue]. split; [assumption|].
  split; apply Z.mod_pos_bound; reflexivity.
Qed.
Lemma dictionary_storable sort words nodes : is_std_sort (list_ltb Z.ltb) sort -> Forall well_formed words -> ~ In [] words ->
  letters words < 4294967296 -> make_dictionary sort words = Ok nodes -> Forall storable_node nodes.
Proof.
  intros Hsort Hwf Hne HB HM. destruct (dictionary_trie sort words Hsort Hwf Hne HB) as (css & t & nodes' & Hcs & -> & Em & En & _ & _ & _ & l & El & Hl).
  assert (nodes' = nodes) by congruence. subst nodes'. apply (flatten_storable t); [|exact En].
  intros n Hn. unfold make_trie in El. refine (insert_after_valued _ l _ _ _ _ _ _ _ El _ n Hn); [|intros k []].
  intros w c Hw Hc. apply Hl in Hw. apply in_map_iff in Hw. destruct Hw as (cs & <- & Hin). apply in_map_iff in Hc. destruct Hc as (x & <- & Hx).
  rewrite Forall_forall in Hcs. specialize (Hcs cs Hin). rewrite Forall_forall in Hcs. pose proof (packed_range x (Hcs x Hx)). lia.
Qed.

(** The dictionary program: the words of its first readable file. *)
Lemma dictionary_file sort before text ls after : is_std_sort (list_ltb Z.ltb) sort -> (forall f, In f before -> f = None) -> text_lines text ls ->
  Forall well_formed ls -> ~ In [] ls -> letters ls < 4294967296 ->
  exists out nodes, dictionary_of_files sort (before ++ Some text :: after) = Ok out /\ load_file read_dict out = Ok nodes /\ links_inside nodes /\
    forall w, well_formed w -> exists codes b, utf8_codes w = Ok codes /\ contains nodes codes = Ok b /\ (b = true <-> In w ls).
Proof.
  intros Hsort Hb Ht Hwf Hne HB. destruct (dictionary_contains sort ls Hsort Hwf Hne HB) as (nodes & Em & Hl & Hc).
  exists (write_dict nodes), nodes. unfold dictionary_of_files. rewrite (words_first before text ls after Hb Ht). cbn [bind]. rewrite Em. cbn [bind].
  split; [reflexivity|]. split; [|split; [exact Hl|exact Hc]]. apply dict_file_round_trip. exact (dictionary_storable sort ls nodes Hsort Hwf Hne HB Em).
Qed.
Lemma dictionary_blank sort before text ls after : is_std_sort (list_ltb Z.ltb) sort -> (forall f, In f before -> f = None) -> text_lines text ls ->
  Forall well_formed ls -> In [] ls -> dictionary_of_files sort (before ++ Some text :: after) = UB.
Proof.
  intros Hsort Hb Ht Hwf Hne. unfold dictionary_of_files. rewrite (words_first before text ls after Hb Ht). cbn [bind].
  rewrite (dictionary_empty_word sort ls Hsort Hwf Hne). reflexivity.
Qed.
Lemma dictionary_first sort text files : dictionary_of_files sort (Some text :: files) = dictionary_of_files sort [Some text].
Proof.
  unfold dictionary_of_files. destruct (text_lines_total text) as (ls & Hls).
  pose proof (words_first [] text ls files (fun f F => match F with end) Hls) as A. pose proof (words_first [] text ls [] (fun f F => match F with end) Hls) as B.
  cbn [app] in A, B. rewrite A, B. reflexivity.
Qed.
Lemma dictionary_none sort files : (forall f, In f files -> f = None) -> dictionary_of_files sort files = dictionary_of_files sort [Some []].
Proof.
  intros H. unfold dictionary_of_files. assert (E : words_of_files false files [] = Ok []).
  { induction files as [|f files IH]; [reflexivity|]. rewrite (H f (or_introl eq_refl)). cbn [words_of_files]. apply IH. intros g Hg. apply H. right. exact Hg. }
  rewrite E. reflexivity.
Qed.
