(** Properties C26-C29, C57, C58: glyph, feature and dictionary files. *)
From Verif Require Import Base ImageModel ImageSpec StratModel SortModel DatasModel StreamModel StreamProofs
  GlyphIoModel GlyphIoSpec GlyphIoProofs DatasIoModel DatasIoSpec DatasIoProofs DictIoModel DictIoSpec DictIoProofs.

(** C26: reading a glyph file gives the glyphs that were written. *)
Theorem C26_glyph_file_round_trip : forall gs,
  Forall storable gs -> load_file read_glyphs (write_glyphs gs) = Ok gs.
Proof. exact glyph_file_round_trip. Qed.
Print Assumptions C26_glyph_file_round_trip.

(** Pixels may look like delimiters or digits; a glyph may have no label. *)
Definition ex_glyphs : list glyph :=
  [mkglyph (mkimage 2 3 (str "x 1-x" ++ [10])) [mkview (str "a") (str "sans") 3; mkview (str "12") (str "7") 4294967295];
   mkglyph (mkimage 0 5 []) [];
   mkglyph (mkimage 1 1 (str "-")) [mkview [195; 169] (str "x") 0]].
Example C26_nonvacuous : Forall storable ex_glyphs /\
  write_glyphs ex_glyphs <> [] /\ load_file read_glyphs (write_glyphs ex_glyphs) = Ok ex_glyphs.
Proof.
  split.
  - unfold ex_glyphs, storable, wf_image, storable_view, plain_text.
    repeat match goal with
    | |- context [gl_views (mkglyph _ _)] => cbn [gl_views]
    | |- Forall _ [] => apply Forall_nil
    | |- Forall _ (_ :: _) => apply Forall_cons
    | |- _ /\ _ => split
    | |- _ <> _ => discriminate
    | |- forall c, In c _ -> _ => intros c Hc; cbn in Hc; lia
    | |- context [List.length] => vm_compute; intuition congruence
    | |- _ => cbn; lia
    end.
  - split; [discriminate|vm_compute; reflexivity].
Qed.
(** A label with white space does not survive: the hypothesis is needed. *)
Example C26_blank_label :
  let gs := [mkglyph (mkimage 1 1 (str "x")) [mkview (str "a b") (str "f") 1]] in
  load_file read_glyphs (write_glyphs gs) = Throw ExReadFile.
Proof. vm_compute. reflexivity. Qed.

(** C27: reading a feature file gives the table that was written. *)
Theorem C27_feature_file_round_trip : forall n cols,
  table n all_strategies cols -> load_file (read_datas all_strategies) (write_datas cols) = Ok cols.
Proof. intros n cols. exact (datas_file_round_trip n all_strategies cols ltac:(discriminate)). Qed.
Print Assumptions C27_feature_file_round_trip.

Definition ex_value (s : strategy) (k : Z) : fval :=
  match st_algo s with
  | Alternations => VAlts [mkalt true k; mkalt false 1; mkalt true 2; mkalt false 3; mkalt true 4; mkalt false 5; mkalt true 10]
  | Zone => VArr [0; k; 10; 20; 4294967295; 5; 6]
  | ProportionalityZone => VVec (if k =? 7 then [] else [k; 100])
  | _ => VNum k
  end.
Definition ex_cols : list (list fval) := map (fun s => [ex_value s 7; ex_value s 120; ex_value s 0]) all_strategies.
Example C27_nonvacuous : table 3 all_strategies ex_cols /\
  load_file (read_datas all_strategies) (write_datas ex_cols) = Ok ex_cols.
Proof.
  split; [|vm_compute; reflexivity]. split; [vm_compute; reflexivity|].
  repeat (constructor; [split; [reflexivity|repeat constructor; unfold is_u32; cbn; try lia]|]). constructor.
Qed.

(** C28: reading a dictionary file gives the nodes that were written. *)
Theorem C28_dictionary_file_round_trip : forall ns,
  Forall storable_node ns -> load_file read_dict (write_dict ns) = Ok ns.
Proof. exact dict_file_round_trip. Qed.
Print Assumptions C28_dictionary_file_round_trip.

(** The nodes of the words "ab" and "b". *)
Definition ex_nodes : list fnode := [mkfn 97 2 1 false; mkfn 98 2 0 true; mkfn 98 1 0 true].
Example C28_nonvacuous : Forall storable_node ex_nodes /\ links_inside ex_nodes /\
  write_dict ex_nodes = str "97 2 1 0" ++ [10] ++ str "98 2 0 1" ++ [10] ++ str "98 1 0 1" ++ [10] /\
  load_file read_dict (write_dict ex_nodes) = Ok ex_nodes.
Proof.
  split; [repeat constructor; cbn; lia|]. split; [|split; vm_compute; reflexivity].
  intros [|[|[|i]]] n E; [injection E as <-; cbn; lia..|destruct i; discriminate].
Qed.

(** C29: what loading a truncated dictionary does, for every cut. *)
Theorem C29_truncation_law : forall ns q,
  Forall storable_node ns -> prefix q (write_dict ns) ->
  load_file read_dict q = Ok (firstn (lines q) ns).
Proof. exact dict_file_prefix. Qed.
Print Assumptions C29_truncation_law.

(** The cut file is accepted, and its table has links outside of it. *)
Theorem C29_truncation_refuted : exists ns q ns',
  Forall storable_node ns /\ links_inside ns /\ strict_prefix q (write_dict ns) /\
  load_file read_dict q = Ok ns' /\ ~ links_inside ns'.
Proof.
  exists ex_nodes, (str "97 2 1 0" ++ [10] ++ str "98 2 0"), [mkfn 97 2 1 false].
  split; [exact (proj1 C28_nonvacuous)|]. split; [exact (proj1 (proj2 C28_nonvacuous))|].
  split; [exists 32, (str "1" ++ [10] ++ str "98 1 0 1" ++ [10]); vm_compute; reflexivity|].
  split; [vm_compute; reflexivity|].
  intros H. specialize (H O _ eq_refl). cbn in H. lia.
Qed.
Print Assumptions C29_truncation_refuted.

(** C57: loading a truncated glyph file. *)
Theorem C57_truncated_glyphs : forall gs q,
  Forall storable gs -> prefix q (write_glyphs gs) ->
  exists a b q1 gs', gs = a ++ b /\ q = write_glyphs a ++ q1 /\ load_file read_glyphs q = Ok gs' /\
    match b with
    | [] => q1 = [] /\ gs' = a
    | g :: _ => strict_prefix q1 (write_glyph g) /\
        (gs' = a \/ exists g', gs' = a ++ [g'] /\ same_labels g' g)
    end.
Proof. exact glyph_file_prefix. Qed.
Print Assumptions C57_truncated_glyphs.

(** A cut in the pixels, and a cut in a line number. *)
Definition ex_cut (k : nat) : list Z := firstn k (write_glyphs (firstn 1 ex_glyphs)).
Example C57_nonvacuous :
  load_file read_glyphs (ex_cut 7) = Ok [] /\ List.length (ex_cut 41) = 38%nat /\
  load_file read_glyphs (ex_cut 33) =
    Ok [mkglyph (mkimage 2 3 (str "x 1-x" ++ [10])) [mkview (str "a") (str "sans") 3; mkview (str "12") (str "7") 429496]].
Proof. vm_compute. repeat split; reflexivity. Qed.

(** C58: loading a truncated feature file, not empty: never an error; the columns
    written completely are intact, those after the next two are empty. *)
Theorem C58_truncation_law : forall n cols q,
  table n all_strategies cols -> q <> [] -> prefix q (write_datas cols) ->
  exists cols', load_file (read_datas all_strategies) q = Ok cols' /\
    List.length cols' = List.length all_strategies /\
    firstn (text_lines q - 1) cols' = firstn (text_lines q - 1) cols /\
    (forall i, (text_lines q < i)%nat -> nth i cols' [] = []).
Proof. intros n cols q. exact (datas_file_prefix n all_strategies cols q ltac:(discriminate)). Qed.
Print Assumptions C58_truncation_law.
(** An empty or blank file: the size is read though nothing has set it. *)
Theorem C58_empty_refuted : forall q, Forall (fun c => is_space c = true) q ->
  load_file (read_datas all_strategies) q = UB.
Proof. exact (datas_blank all_strategies). Qed.
Print Assumptions C58_empty_refuted.

Theorem C58_truncation_refuted : exists n cols q cols',
  table n all_strategies cols /\ strict_prefix q (write_datas cols) /\
  load_file (read_datas all_strategies) q = Ok cols' /\
  ~ (exists m, Forall (fun c => List.length c = m) cols').
Proof.
  exists 3%nat, ex_cols, (firstn 30 (write_datas ex_cols)),
    ([VNum 7; VNum 120; VNum 0] :: [VNum 7; VNum 120; VNum 0] :: [VNum 7; VNum 120; VNum 0] :: [VNum 7; VNum 0; VNum 0] :: repeat [] 21).
  split; [exact (proj1 C27_nonvacuous)|]. split.
  - exists (nth 30 (write_datas ex_cols) 0), (skipn 31 (write_datas ex_cols)). vm_compute. reflexivity.
  - split; [vm_compute; reflexivity|]. intros [m H]. inversion H as [|? ? H1 H2]; subst.
    inversion H2 as [|? ? _ H3]; subst. inversion H3 as [|? ? _ H4]; subst.
    inversion H4 as [|? ? _ H5]; subst. cbn [repeat] in H5. inversion H5. discriminate.
Qed.
Print Assumptions C58_truncation_refuted.
