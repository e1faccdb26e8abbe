(** Property C104: what the training programs print depends on their files only. *)
From Verif Require Import Base SortModel SortProofs ImageModel StratModel ZoneModel DatasModel StreamModel GlyphIoModel RefuseSpec GlyphIoSpec GlyphFileSpec GlyphTextSpec GlyphTextProofs TrieModel NormModel LearnModel ShowModel ProgModel
  SameSpec SameProofs SameProofs3 RecogWitness PropSame.

(** C104: the sorts and the content of fresh memory are any that the standard allows.
    normalize_glyphs and make_trie_dictionary print the same on any files. *)
Theorem C104_normalize : forall sort sort_views sort' sort_views' disk av, is_std_sort glyph_less sort -> is_std_sort view_less sort_views ->
  is_std_sort glyph_less sort' -> is_std_sort view_less sort_views' -> normalize_main sort sort_views disk av = normalize_main sort' sort_views' disk av.
Proof. exact normalize_main_same. Qed.
Print Assumptions C104_normalize.
Theorem C104_dictionary : forall sort sort' disk av, is_std_sort (list_ltb Z.ltb) sort -> is_std_sort (list_ltb Z.ltb) sort' -> dictionary_main sort disk av = dictionary_main sort' disk av.
Proof. exact dictionary_same. Qed.
Print Assumptions C104_dictionary.
(** write_datas prints the same when the pictures of its file have fewer than 2^30
    pixels. *)
Theorem C104_write_datas : forall junk junk' z z', is_std_sort Z.ltb z -> is_std_sort Z.ltb z' -> forall cx cx' disk prog args, small_files disk args ->
  write_datas_main junk z cx disk (prog :: args) = write_datas_main junk' z' cx' disk (prog :: args).
Proof. exact write_datas_same. Qed.
Print Assumptions C104_write_datas.

Lemma digit_starts p d r : blank p -> 48 <= d <= 57 -> match r with c :: _ => is_digit c = false | [] => True end -> starts_number (p ++ [d] ++ r) (d - 48) r.
Proof.
  intros Hp Hd Hr. exists p, [d]. split; [exact Hp|]. split; [|split; [reflexivity|exact Hr]]. exists [], [d]. split; [reflexivity|].
  split; [split; [now left|intros c [<-|[]]; unfold is_digit; lia]|]. split; [discriminate|]. unfold digits_value. cbn. lia.
Qed.
Definition ex_file : list Z := str "2 1" ++ [10] ++ str "xx1" ++ [10] ++ str "b f 0" ++ [10] ++ str "2 1" ++ [10] ++ str "xx2" ++ [10] ++ str "b f 0" ++ [10] ++ str "a f 0" ++ [10].
Definition ex_files : list Z -> option (list Z) := fun name => if list_eqb name (str "g") then Some ex_file else if list_eqb name (str "w") then Some (str "b a b") else None.
Example C104_nonvacuous :
  normalize_main (rsort glyph_less) (rsort view_less) ex_files [str "p"; str "g"] =
    Ok (write_glyphs [mkglyph (mkimage 2 1 (str "xx")) [mkview (str "a") (str "f") 0; mkview (str "b") (str "f") 0]], Exits 0) /\
  is_std_sort glyph_less (rsort glyph_less) /\ is_std_sort view_less (rsort view_less) /\
  (exists out, dictionary_main (rsort (list_ltb Z.ltb)) ex_files [str "p"; str "w"] = Ok (out, Exits 0) /\ out <> []) /\
  (exists out, write_datas_main (fun _ => 7) (rsort Z.ltb) new_ctxs ex_files [str "p"; str "g"] = Ok (out, Exits 0) /\ out <> []) /\
  small_files ex_files [str "g"].
Proof.
  split; [vm_compute; reflexivity|]. split; [apply rsort_is_sort|]. split; [apply rsort_is_sort|].
  split; [eexists; split; [vm_compute; reflexivity|discriminate]|]. split; [eexists; split; [vm_compute; reflexivity|discriminate]|].
  intros name bytes [<-|[]] E. assert (Eb : bytes = ex_file) by (vm_compute in E |- *; congruence). subst bytes.
  assert (B0 : blank []) by (intros c []). assert (B1 : blank [32]) by (intros c [<-|[]]; reflexivity).
  exists [mkimage 2 1 (str "xx"); mkimage 2 1 (str "xx")], true. split; [|repeat constructor].
  assert (N1 : forall r, next_line (10 :: r) r) by (intros r; exact (nl_some [] r (fun H => H))).
  assert (N2 : forall x r, forallb (fun c => negb (c =? 10)) x = true -> next_line (x ++ 10 :: r) r).
  { intros x r F. apply nl_some. intros I. rewrite forallb_forall in F. specialize (F 10 I). discriminate F. }
  assert (I : forall r, starts_img (str "2 1" ++ [10] ++ str "xx" ++ r) (mkimage 2 1 (str "xx")) r).
  { intros r. exists (str " 1" ++ [10] ++ str "xx" ++ r), 10. split; [apply (digit_starts [] 50); [exact B0|lia|reflexivity]|]. split; [apply (digit_starts [32] 49); [exact B1|lia|reflexivity]|reflexivity]. }
  eapply pt_more with (n := 1); [apply I|apply (digit_starts [] 49); [exact B0|lia|reflexivity]| |].
  { apply (al_one 1) with (r := str "b f 0" ++ [10] ++ str "2 1" ++ [10] ++ str "xx2" ++ [10] ++ str "b f 0" ++ [10] ++ str "a f 0" ++ [10]); [lia|apply N1|].
    apply (al_one 0) with (r := str "2 1" ++ [10] ++ str "xx2" ++ [10] ++ str "b f 0" ++ [10] ++ str "a f 0" ++ [10]); [lia|apply N2; reflexivity|constructor]. }
  eapply pt_more with (n := 2); [apply I|apply (digit_starts [] 50); [exact B0|lia|reflexivity]| |].
  { apply (al_one 2) with (r := str "b f 0" ++ [10] ++ str "a f 0" ++ [10]); [lia|apply N1|]. apply (al_one 1) with (r := str "a f 0" ++ [10]); [lia|apply N2; reflexivity|].
    apply (al_one 0) with (r := []); [lia|apply N2; reflexivity|constructor]. }
  apply pt_end. left. split; [intros n r H; exact (number_nil n r H)|]. split; [|reflexivity]. intros _. exists [], [], []. split; [exact B0|]. split; [|reflexivity]. split; [now left|intros c []].
Qed.
