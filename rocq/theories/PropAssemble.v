(** Property C51: the assembly of the text. *)
From Verif Require Import Base SortModel DatasModel SortProofs UtfSpec StreamModel GlyphIoModel GlyphIoSpec TrieModel TrieSpec GlyphsSpec DictIoModel SpellModel SpellSpec IndexModel GlyphsModel AssembleModel AssembleSpec AssembleProofs FilterSpec.
From Coq Require Import Sorted.

(** C51, for any dictionary whose answers are [spell] (C36_ligatures_read): the
    text is that of the leading marks, without the unknown characters, followed by
    the rendering of the rest, whose first break is not rendered. *)
Theorem C51_text : forall g dict st amb brks spell,
  resolvable g st amb -> increasing_breaks (vsize amb) brks -> vsize amb < 4294967296 ->
  let line := line_of g st amb brks in
  spelled_by dict line spell ->
  let k := leading line in
  assemble g dict st amb (brks ++ [vsize amb]) =
    Ok (flat_map (fun p => front (snd p)) (firstn k line) ++ render spell [] (clear_first (skipn k line)), unknown (skipn k line)).
Proof. exact assemble_exact. Qed.
Print Assumptions C51_text.
(** Full statement: with an empty dictionary,
      flat_map (fun p => front (snd p)) (firstn k line) ++ plain (skipn k line)
    for all lines.  Proved when the leading run does not end at a break. *)
Theorem C51_plain_partial : forall g st amb brks,
  resolvable g st amb -> increasing_breaks (vsize amb) brks -> vsize amb < 4294967296 ->
  let line := line_of g st amb brks in
  let k := leading line in
  (forall c rest, skipn k line <> (true, c) :: rest) ->
  assemble g [] st amb (brks ++ [vsize amb]) =
    Ok (flat_map (fun p => front (snd p)) (firstn k line) ++ plain (skipn k line), unknown (skipn k line)).
Proof. exact assemble_no_break. Qed.
Print Assumptions C51_plain_partial.
(** With a dictionary and candidates of one character: the groups of letters that
    have a choice in the dictionary are replaced by the first such choice. *)
Theorem C51_dictionary : forall sort words nodes g st amb brks,
  is_std_sort (list_ltb Z.ltb) sort -> Forall well_formed words -> ~ In [] words -> letters words < 4294967296 -> make_dictionary sort words = Ok nodes ->
  resolvable g st amb -> increasing_breaks (vsize amb) brks -> vsize amb < 4294967296 ->
  let line := line_of g st amb brks in
  Forall (fun p => Forall one_char (snd p)) line ->
  let k := leading line in
  assemble g nodes st amb (brks ++ [vsize amb]) =
    Ok (flat_map (fun p => front (snd p)) (firstn k line) ++ render (SpellSpec.first_word words) [] (clear_first (skipn k line)), unknown (skipn k line)).
Proof. exact assemble_dictionary. Qed.
Print Assumptions C51_dictionary.

(** A table of three words. *)
Definition ex_label (w : list Z) : fglyph := mkfg (str "x") [mkfl w (str "f") []].
Definition ex_table : glyphs_table :=
  match load_glyphs (open_stream (file_text [ex_label (str "-"); ex_label (str "a"); ex_label (str "b")])) with Ok (t, _) => t | _ => mkgt [] [] 0 end.
Definition ex_store : list (list oview) := [[mkov 0 0]; [mkov 2 0]; [mkov 4 0; mkov 4 1; mkov 2 0]; []].
Lemma ex_resolvable amb : forallb (fun r => (0 <=? r) && (r <? 4)) amb = true -> resolvable ex_table ex_store amb.
Proof.
  intros H r Hr. rewrite forallb_forall in H. specialize (H r Hr). apply andb_true_iff in H. destruct H as [H1 H2]. apply Z.leb_le in H1. apply Z.ltb_lt in H2.
  split; [change (vsize ex_store) with 4; lia|]. assert (C : r = 0 \/ r = 1 \/ r = 2 \/ r = 3) by lia. intros v Hv.
  destruct C as [-> | [-> | [-> | ->]]]; vm_compute in Hv; intuition (subst v; eexists; vm_compute; reflexivity).
Qed.
Example C51_nonvacuous :
  let amb := [1; 2; 0; 3; 1] in
  resolvable ex_table ex_store amb /\ increasing_breaks (vsize amb) [3] /\
  line_of ex_table ex_store amb [3] = [(false, [str "a"]); (false, [str "b"; str "a"]); (false, [str "-"]); (true, []); (false, [str "a"])] /\
  assemble ex_table [] ex_store amb [3; 5] = Ok (str "ab- ?a", 1) /\
  (nodes <- make_dictionary (isort (list_ltb Z.ltb)) [str "aa"] ;; assemble ex_table nodes ex_store amb [3; 5]) = Ok (str "aa- ?a", 1).
Proof.
  cbv zeta. split; [apply ex_resolvable; reflexivity|]. split; [split; [repeat constructor|intros b [<-|[]]; vm_compute; split; congruence]|].
  repeat split; vm_compute; reflexivity.
Qed.

(** A break after leading marks is not rendered: "- a" is read "-a". *)
Theorem C51_break_refuted : exists g st amb brks,
  resolvable g st amb /\ increasing_breaks (vsize amb) brks /\
  line_of g st amb brks = [(false, [str "-"]); (true, [str "a"])] /\ plain (line_of g st amb brks) = str "- a" /\
  assemble g [] st amb (brks ++ [vsize amb]) = Ok (str "-a", 0).
Proof.
  exists ex_table, ex_store, [0; 1], [1]. split; [apply ex_resolvable; reflexivity|].
  split; [split; [repeat constructor|intros b [<-|[]]; vm_compute; split; congruence]|]. repeat split; vm_compute; reflexivity.
Qed.
Print Assumptions C51_break_refuted.

(** C59, in full: every unknown character is shown and counted.  Proved when the
    leading run has none. *)
Theorem C59_unknown_partial : forall g st amb brks,
  resolvable g st amb -> increasing_breaks (vsize amb) brks -> vsize amb < 4294967296 ->
  let line := line_of g st amb brks in
  Forall (fun p => snd p <> []) (firstn (leading line) line) ->
  exists text, assemble g [] st amb (brks ++ [vsize amb]) = Ok (text, unknown line) /\
    exists line', map snd line' = map snd line /\ text = plain line'.
Proof. exact assemble_unknown. Qed.
Print Assumptions C59_unknown_partial.
(** The unknown characters at the beginning are neither shown nor counted. *)
Theorem C59_unknown_refuted : exists g st amb,
  resolvable g st amb /\ line_of g st amb [] = [(false, []); (false, []); (false, [str "a"])] /\ unknown (line_of g st amb []) = 2 /\
  assemble g [] st amb [vsize amb] = Ok (str "a", 0).
Proof. exists ex_table, ex_store, [3; 3; 1]. split; [apply ex_resolvable; reflexivity|]. repeat split; vm_compute; reflexivity. Qed.
Print Assumptions C59_unknown_refuted.
Example C59_nonvacuous :
  resolvable ex_table ex_store [0; 1; 3] /\ increasing_breaks 3 [] /\
  Forall (fun p => snd p <> []) (firstn (leading (line_of ex_table ex_store [0; 1; 3] [])) (line_of ex_table ex_store [0; 1; 3] [])) /\
  assemble ex_table [] ex_store [0; 1; 3] [3] = Ok (str "-a?", 1).
Proof.
  split; [apply ex_resolvable; reflexivity|]. split; [split; [constructor|intros b []]|]. split; [|vm_compute; reflexivity].
  vm_compute. apply Forall_cons; [discriminate|apply Forall_nil].
Qed.
