(** Property C112: what is learnt depends on the pictures and their labels only. *)
From Verif Require Import Base SortModel SortProofs ImageModel ImageSpec BoxModel BoxSpec StreamModel DatasModel GlyphIoModel GlyphIoSpec DictIoModel TrieModel TrieSpec DecodeSpec NormModel NormSpec LearnModel LearnSpec
  ShowModel ShowSpec ProgModel ProgSpec GlyphTextSpec ChainSpec TeachSpec TeachProofs TeachProofs2 PropShow.
From Coq Require Import Sorted Permutation.

(** C112: runs of write_glyphs on the same images, texts and fonts, in any order, any
    number of times and in any number of runs, print files that normalize_glyphs makes
    the same.  The programs that follow are given that file only. *)
Theorem C112_runs : forall sort sort' sort_views sort_views', is_std_sort glyph_less sort -> is_std_sort glyph_less sort' -> is_std_sort view_less sort_views -> is_std_sort view_less sort_views' ->
  forall disk lum rs rs', Forall (good_run disk lum) rs -> Forall (good_run disk lum) rs' -> (forall t, learns rs t <-> learns rs' t) ->
  exists gfs gfs', let printed r gf := forall prog, write_glyphs_main disk (prog :: fst r ++ triples (snd r)) = Ok (gf, Exits 0) in
    Forall2 printed rs gfs /\ Forall2 printed rs' gfs' /\
    forall disk1 disk2 names names' prog prog', Forall2 (fun n gf => disk1 n = Some gf) names gfs -> Forall2 (fun n gf => disk2 n = Some gf) names' gfs' ->
      normalize_main sort sort_views disk1 (prog :: names) = normalize_main sort' sort_views' disk2 (prog' :: names').
Proof. exact runs_taught. Qed.
Print Assumptions C112_runs.
(** Glyphs whose labels are in order: they are normalised to the same exactly when they
    are the same pictures with the same labels. *)
Theorem C112_glyphs : forall sort sort' sort_views sort_views', is_std_sort glyph_less sort -> is_std_sort glyph_less sort' -> is_std_sort view_less sort_views -> is_std_sort view_less sort_views' ->
  forall gs gs', Forall (fun g => full_image (gl_img g)) gs -> Forall (fun g => full_image (gl_img g)) gs' -> in_order gs -> in_order gs' ->
  (normalize sort sort_views gs = normalize sort' sort_views' gs' <-> same_lessons gs gs').
Proof. exact normalize_lessons. Qed.
Print Assumptions C112_glyphs.
(** More can be learnt: a file that was normalised counts as those it was made from. *)
Theorem C112_added : forall sort sort' sort_views sort_views', is_std_sort glyph_less sort -> is_std_sort glyph_less sort' -> is_std_sort view_less sort_views -> is_std_sort view_less sort_views' ->
  forall disk disk' names more name nf prog prog' prog2 gss gss', names <> [] -> Forall2 (fun n gs => glyph_file (disk n) gs) names gss -> Forall2 (fun n gs => glyph_file (disk n) gs) more gss' ->
  in_order (List.concat gss) -> in_order (List.concat gss') -> Z.of_nat (List.length (flat_map gl_views (List.concat gss))) < 4294967296 ->
  normalize_main sort sort_views disk (prog :: names) = Ok (nf, Exits 0) -> disk' name = Some nf -> (forall n, In n more -> disk' n = disk n) ->
  normalize_main sort sort_views disk' (prog' :: name :: more) = normalize_main sort' sort_views' disk (prog2 :: names ++ more).
Proof. exact normalised_added. Qed.
Print Assumptions C112_added.
(** Files of any bytes: given in another order, what is printed is the same; given other
    numbers of times as well, if the labels of their glyphs are in order. *)
Theorem C112_order : forall sort sort' sort_views sort_views', is_std_sort glyph_less sort -> is_std_sort glyph_less sort' -> is_std_sort view_less sort_views -> is_std_sort view_less sort_views' ->
  forall disk prog prog' names names' out, Permutation names names' ->
  (normalize_main sort sort_views disk (prog :: names) = Ok (out, Exits 0) <-> normalize_main sort' sort_views' disk (prog' :: names') = Ok (out, Exits 0)).
Proof. exact names_permuted. Qed.
Print Assumptions C112_order.
Theorem C112_names : forall sort sort' sort_views sort_views', is_std_sort glyph_less sort -> is_std_sort glyph_less sort' -> is_std_sort view_less sort_views -> is_std_sort view_less sort_views' ->
  forall disk prog prog' names names' gs, names <> [] -> (forall n, In n names <-> In n names') -> files_text disk names (inl gs) -> in_order gs ->
  normalize_main sort sort_views disk (prog :: names) = normalize_main sort' sort_views' disk (prog' :: names').
Proof. exact names_again. Qed.
Print Assumptions C112_names.
(** make_trie_dictionary: the lines of the file that is read, in any order and any number
    of times, give the same dictionary, whatever their bytes. *)
Theorem C112_dictionary : forall sort sort' before before' text text' after after' ls ls', is_std_sort (list_ltb Z.ltb) sort -> is_std_sort (list_ltb Z.ltb) sort' ->
  (forall f, In f before -> f = None) -> (forall f, In f before' -> f = None) -> text_lines text ls -> text_lines text' ls' -> octets text -> octets text' -> (forall w, In w ls <-> In w ls') ->
  dictionary_of_files sort (before ++ Some text :: after) = dictionary_of_files sort' (before' ++ Some text' :: after').
Proof. exact dictionary_words. Qed.
Print Assumptions C112_dictionary.

(** The image of C84 with two fonts, in one run or in two. *)
Definition ex_run (opts : list (list Z)) (fonts : list string) : run := (opts, map (fun f => (str "a", str "t", str f)) fonts).
Definition ex_two : list Z :=
  write_glyphs [mkglyph (mkimage 2 2 (str "x--x")) [mkview (str "v") (str "f") 4294967295; mkview (str "v") (str "g") 4294967295]].
Definition ex_saved (run : run) : list Z := match write_glyphs_main ex_disk2 ([] :: fst run ++ triples (snd run)) with Ok (gf, Exits 0) => gf | _ => [] end.
Definition ex_normalised (files : list (list Z)) : res (list Z * ended) :=
  normalize_main (isort glyph_less) (isort view_less) (fun n => nth_error files (List.length n)) ([] :: map (fun i => repeat 0 i) (seq 0 (List.length files))).
Example C112_nonvacuous :
  Forall (good_run ex_disk2 128) [ex_run [] ["f"; "g"]%string] /\ Forall (good_run ex_disk2 128) [ex_run [] ["g"; "g"]%string; ex_run [] ["f"; "g"; "f"]%string] /\
  (forall t, learns [ex_run [] ["f"; "g"]%string] t <-> learns [ex_run [] ["g"; "g"]%string; ex_run [] ["f"; "g"; "f"]%string] t) /\
  ex_saved (ex_run [] ["f"; "g"]%string) <> ex_saved (ex_run [] ["g"; "f"]%string) /\
  ex_normalised [ex_saved (ex_run [] ["f"; "g"]%string)] = Ok (ex_two, Exits 0) /\
  ex_normalised [ex_saved (ex_run [] ["g"; "g"]%string); ex_saved (ex_run [] ["f"; "g"; "f"]%string)] = Ok (ex_two, Exits 0) /\
  ex_normalised [ex_two; ex_saved (ex_run [] ["g"]%string)] = Ok (ex_two, Exits 0).
Proof.
  assert (FG : forall f, plain_text (str f) -> exists gs, file_glyphs ex_disk2 128 (str "a", str "t", str f) gs).
  { intros f _. destruct C84_nonvacuous as ((img & tx & boxes & ws & A & B & C & D & E & F & _) & _).
    destruct (LearnProofs.learn_image_ok img tx (str f) boxes ws C D E) as (gs & Hg & _). exists gs, img, tx, boxes, ws. auto 10. }
  assert (PF : forall f, f = "f"%string \/ f = "g"%string -> plain_text (str f)).
  { intros f [-> | ->]; (split; [discriminate|]; intros c [<-|[]]; cbn; lia). }
  assert (GR : forall l, l <> [] -> (forall f, In f l -> f = "f"%string \/ f = "g"%string) -> good_run ex_disk2 128 (ex_run [] l)).
  { intros l Hl H. split; [destruct l; [congruence|discriminate]|]. split; [left; split; [reflexivity|]; split; [reflexivity|]; destruct l; [congruence|]; cbn; discriminate|].
    intros t Ht. cbn [snd ex_run] in Ht. apply in_map_iff in Ht as (f & <- & Hf). cbn [snd]. split; [apply PF, H, Hf|apply FG, PF, H, Hf]. }
  split; [constructor; [apply GR; [discriminate|cbn; intuition]|constructor]|].
  split; [constructor; [apply GR; [discriminate|cbn; intuition]|constructor; [apply GR; [discriminate|cbn; intuition]|constructor]]|].
  split.
  { intros t. unfold learns. split.
    - intros (r & [<-|[]] & Ht). exists (ex_run [] ["f"; "g"; "f"]%string). cbn in *. tauto.
    - intros (r & [<-|[<-|[]]] & Ht); exists (ex_run [] ["f"; "g"]%string); cbn in *; tauto. }
  split; [vm_compute; discriminate|]. split; [vm_compute; reflexivity|]. split; [vm_compute; reflexivity|vm_compute; reflexivity].
Qed.
Example C112_dictionary_nonvacuous : text_lines (str "b" ++ [10] ++ str "a") [str "b"; str "a"] /\ text_lines (str "a" ++ [10] ++ str "b" ++ [10] ++ str "a" ++ [10]) [str "a"; str "b"; str "a"] /\
  octets (str "b" ++ [10] ++ str "a") /\ (forall w, In w [str "b"; str "a"] <-> In w [str "a"; str "b"; str "a"]).
Proof.
  split; [exists [str "b"], (str "a"); split; [reflexivity|]; split; [|reflexivity]; cbn; intuition (subst; cbn in *; intuition discriminate)|].
  split; [exists [str "a"; str "b"; str "a"], []; split; [reflexivity|]; split; [|reflexivity]; cbn; intuition (subst; cbn in *; intuition discriminate)|].
  split; [repeat constructor; lia|]. intros w. cbn. tauto.
Qed.

(** A file whose labels are not in order, given twice: the labels are not those of the
    file given once (C61). *)
Theorem C112_labels_refuted : let f := write_glyphs [mkglyph (mkimage 2 1 (str "xx")) [mkview (str "b") (str "f") 0; mkview (str "a") (str "f") 0]] in
  ex_normalised [f] = Ok (f, Exits 0) /\
  ex_normalised [f; f] = Ok (write_glyphs [mkglyph (mkimage 2 1 (str "xx")) [mkview (str "a") (str "f") 0; mkview (str "b") (str "f") 0]], Exits 0).
Proof. cbv zeta. split; vm_compute; reflexivity. Qed.
Print Assumptions C112_labels_refuted.
(** A file that is missing and one that is spoilt: the code is that of the first one. *)
Theorem C112_code_refuted : forall sort sort_views prog, let disk n := if list_eqb n (str "s") then Some (str "x") else None in
  normalize_main sort sort_views disk [prog; str "m"; str "s"] = Ok ([], Exits 2) /\ normalize_main sort sort_views disk [prog; str "s"; str "m"] = Ok ([], Exits 5).
Proof. intros sort sort_views prog. cbv zeta. split; reflexivity. Qed.
Print Assumptions C112_code_refuted.
(** The files of a dictionary: only the first one is read (C62). *)
Theorem C112_dictionary_refuted : let d files := dictionary_of_files (isort (list_ltb Z.ltb)) (map Some files) in
  d [str "a"; str "b"] <> d [str "b"; str "a"] /\ d [str "a"; str "b"] = d [str "a"].
Proof. cbv zeta. split; [vm_compute; discriminate|vm_compute; reflexivity]. Qed.
Print Assumptions C112_dictionary_refuted.
