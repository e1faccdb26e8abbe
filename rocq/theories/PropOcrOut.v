(** Property C95: all that extract_text6 and extract_text8 print. *)
From Verif Require Import Base SortModel SortProofs ImageModel ImageSpec PnmModel BoxModel BoxSpec StratModel ZoneModel DatasModel DatasSpec StreamModel
  GlyphIoModel GlyphIoSpec DatasIoModel DictIoModel TrieModel IndexModel FloatModel RecogModel RecogSpec
  RecogWitness ExtractModel ExtractSpec AssembleSpec LearnModel PipelineModel PipelineSpec PipelineProofs4 PropPipeline ReadSpec PropRead
  Ocr6Model Ocr6Spec PropOcr6 Ocr8Model Ocr8Spec PropOcr8 ShowModel ShowSpec FormatModel PrintModel PrintSpec PropPrint
  OcrOutModel OcrOutSpec OcrOutProofs OcrOutProofs2 OcrOutProofs3.
From Coq Require Import Permutation.

(** C95: the text for a picture is that of the candidates it has, and the words are
    those that C77 and C80 describe. *)
Theorem C95_picture6 : forall nan e n img, sound_env6 e -> recognisable img ->
  recognise6 e n img = ('(f, _) <- recognise_out6 nan e n img ;; Ok f) /\
  (forall f t, recognise_out6 nan e n img = Ok (f, t) -> explained6 e img f t).
Proof. intros nan e n img HE R. split; [exact (recognise_forget6 nan e n img)|]. intros f t. exact (recognise_text6 nan e n img f t HE R). Qed.
Print Assumptions C95_picture6.
Theorem C95_picture8 : forall nan e n img, sound_env8 e -> recognisable img ->
  recognise8 e n img = ('(f, _) <- recognise_out8 nan e n img ;; Ok f) /\
  (forall f t, recognise_out8 nan e n img = Ok (f, t) -> explained8 e img f t).
Proof. intros nan e n img HE R. split; [exact (recognise_forget8 nan e n img)|]. intros f t. exact (recognise_text8 nan e n img f t HE R). Qed.
Print Assumptions C95_picture8.

(** The run prints the steps, a frame with its text for each picture where it is seen
    first, then the three results. *)
Theorem C95_output6 : forall rt nan disk prog args glyphs datas image dict nodes e img boxes, files_are6 disk args glyphs datas image dict ->
  load_all6 rt glyphs datas dict = Ok (nodes, e) -> sound_env6 e -> image_of_bytes image 128 = Ok img -> box_searchable img -> segment img = Ok boxes ->
  Forall (small_character img) boxes ->
  exists gs, load_file read_glyphs glyphs = Ok gs /\
    shown_as (extract_text6 rt glyphs datas image dict) (head6 (dict_shown dict nodes) (vsize gs)) (printed_with (recognise6 e) (explained6 e) img boxes)
      (main6 rt nan disk (prog :: args)).
Proof. exact main_output6. Qed.
Print Assumptions C95_output6.
Theorem C95_output8 : forall rt nan disk prog args glyphs datas image dict nodes e img boxes, files_are6 disk args glyphs datas image dict ->
  load_all8 rt glyphs datas dict = Ok (nodes, e) -> sound_env8 e -> image_of_bytes image 128 = Ok img -> box_searchable img -> segment img = Ok boxes ->
  Forall (small_character img) boxes ->
  exists gs repeated, load_file read_glyphs glyphs = Ok gs /\
    shown_as (extract_text8 rt glyphs datas image dict) (head8 (dict_shown dict nodes) (vsize gs) repeated) (printed_with (recognise8 e) (explained8 e) img boxes)
      (main8 rt nan disk (prog :: args)).
Proof. exact main_output8. Qed.
Print Assumptions C95_output8.

(** With the files of trained glyphs the run prints all this and ends well, unless a
    division by zero is met. *)
Theorem C95_trained6 : forall rt gs junk z cx0 datas bytes img boxes dict spell nan disk prog args, legal6 rt -> trainable6 gs -> is_std_sort Z.ltb z ->
  write_datas_file junk z cx0 (write_glyphs gs) = Ok (Some datas) -> image_of_bytes bytes 128 = Ok img -> box_searchable img -> segment img = Ok boxes ->
  Forall (small_character img) boxes -> dict_spell (labels gs) dict spell -> files_are6 disk args (write_glyphs gs) datas bytes dict ->
  exists e nodes, built6 z gs e /\ load_optional read_dict [] dict = Ok nodes /\
    let bad := exists b im, In b boxes /\ char_image img b im /\ undefined6 (r6_zones rt) im (e6_cols e) (e6_words e) in
    (bad /\ main6 rt nan disk (prog :: args) = UB) \/
    (~ bad /\ exists fs amb out, line6 (recognise6 e) img 0 [] boxes fs amb /\ printed_with (recognise6 e) (explained6 e) img boxes out /\
       main6 rt nan disk (prog :: args) = Ok (head6 (dict_shown dict nodes) (vsize gs) ++ out ++ results_lines (spaced f6_r1 fs, spaced f6_r2 fs, text6 spell amb), Exits 0)).
Proof. exact main_trained6. Qed.
Print Assumptions C95_trained6.
(** For extract_text8 the number of glyphs taken for repetitions is printed too; with
    one, or with three or more, nothing is known of the run (C78). *)
Theorem C95_trained8 : forall rt gs junk z cx0 datas bytes img boxes nan disk prog args, legal8 rt -> trainable6 gs -> is_std_sort Z.ltb z ->
  write_datas_file junk z cx0 (write_glyphs gs) = Ok (Some datas) -> image_of_bytes bytes 128 = Ok img -> box_searchable img -> segment img = Ok boxes ->
  Forall (small_character img) boxes -> files_are6 disk args (write_glyphs gs) datas bytes None ->
  exists gs' ds, Permutation gs gs' /\ ordered8 z gs' /\ NoDup ds /\ (forall j, In j ds <-> other8 z gs' j) /\
    (((List.length ds = 1%nat \/ (3 <= List.length ds)%nat) /\ main8 rt nan disk (prog :: args) = UB) \/
     ((List.length ds = 0%nat \/ List.length ds = 2%nat) /\ exists e, sound_env8 e /\ joined_rows8 z gs' e /\
        let bad := exists b im, In b boxes /\ char_image img b im /\ undefined8 (r6_zones (e8_rt e)) im (e8_cols e) (e8_words e) in
        (bad /\ main8 rt nan disk (prog :: args) = UB) \/
        (~ bad /\ exists fs amb out, line6 (recognise8 e) img 0 [] boxes fs amb /\ printed_with (recognise8 e) (explained8 e) img boxes out /\
           main8 rt nan disk (prog :: args) =
             Ok (head8 None (vsize gs) (Z.of_nat (List.length ds)) ++ out ++ results_lines (spaced f6_r1 fs, spaced f6_r2 fs, text6 (fun _ => None) amb), Exits 0)))).
Proof. exact main_trained8. Qed.
Print Assumptions C95_trained8.

(** With a file that is refused or missing the run prints what precedes and aborts. *)
Theorem C95_refused : forall nan disk prog args glyphs datas image dict out x, disk_files6 disk args glyphs datas image dict -> refused_files glyphs datas dict out x ->
  (forall rt, main6 rt nan disk (prog :: args) = Ok (out, Aborts x)) /\ (forall rt, main8 rt nan disk (prog :: args) = Ok (out, Aborts x)).
Proof. intros. split; intros rt; [eapply main_refused6|eapply main_refused8]; eassumption. Qed.
Print Assumptions C95_refused.
Theorem C95_image6 : forall rt nan disk prog args glyphs datas image dict nodes e x, disk_files6 disk args (Some glyphs) (Some datas) image dict ->
  load_all6 rt glyphs datas dict = Ok (nodes, e) -> load_image image 128 = Throw x ->
  exists gs, load_file read_glyphs glyphs = Ok gs /\ main6 rt nan disk (prog :: args) = Ok (head6 (dict_shown dict nodes) (vsize gs), Aborts x).
Proof. exact main_image6. Qed.
Print Assumptions C95_image6.
Theorem C95_image8 : forall rt nan disk prog args glyphs datas image dict nodes e x, disk_files6 disk args (Some glyphs) (Some datas) image dict ->
  load_all8 rt glyphs datas dict = Ok (nodes, e) -> load_image image 128 = Throw x ->
  exists gs repeated, load_file read_glyphs glyphs = Ok gs /\ main8 rt nan disk (prog :: args) = Ok (head8 (dict_shown dict nodes) (vsize gs) repeated, Aborts x).
Proof. exact main_image8. Qed.
Print Assumptions C95_image8.
(** Less than three arguments. *)
Theorem C95_usage : forall nan disk prog args, (List.length args < 3)%nat ->
  (forall rt, main6 rt nan disk (prog :: args) = Ok ([], Exits 1)) /\ (forall rt, main8 rt nan disk (prog :: args) = Ok ([], Exits 1)).
Proof. intros. split; intros rt; [now apply usage6|now apply usage8]. Qed.
Print Assumptions C95_usage.

(** * Runs *)
Definition run_with (main : (list Z -> option (list Z)) -> list (list Z) -> res (list Z * ended)) (gs : list glyph) (img : image) : res (list Z * ended) :=
  df <- features_of gs ;;
  main (fun n => if list_eqb n (str "g") then Some (write_glyphs gs) else if list_eqb n (str "f") then Some df
                 else if list_eqb n (str "i") then Some (picture img) else None) [str "p"; str "g"; str "f"; str "i"].
Definition found_text (score words : string) : list Z := escape "[00;34mbest: " ++ str score ++ str " ( " ++ escape "[00;31m" ++ str words ++ escape "[0m)" ++ [10; 10].
Definition other_text (words score : string) : list Z := escape "[00;31m" ++ str words ++ escape "[0m" ++ str score ++ str "  ".
Definition none_text : list Z := escape "[00;34mbest: 0 ( )" ++ escape "[0m" ++ [10; 10].
Definition ex_frames (t : list Z) : list Z :=
  lines_text [":::::"; ":xxx:"; ":x-x:"; ":xxx:"; ":::::"]%string ++ t ++ [10; 10] ++
  lines_text ["::::"; ":xx:"; ":x-:"; ":x-:"; "::::"]%string ++ none_text ++ lines_text [":::"; ":x:"; ":x:"; ":x:"; ":::"]%string ++ none_text.
(** Only the first mark is found; extract_text8 gives it the words of all glyphs. *)
Example C95_run6 : run_with (main6 ex_rt6 (str "nan")) ex_rlo ex_orl = Ok (
  lines_text [" ## datas.size(): 3"; " ## glyphs.size(): 3"; " ## sort"; " ## sort by word"; " ## sort by value"; " ## go"]%string ++
  ex_frames (found_text "1" "o ") ++ lines_text [" ## result1: o _ _ "; " ## result2: o _ _ "; " ## result3: o??"]%string, Exits 0).
Proof. vm_compute. reflexivity. Qed.
Example C95_run8 : run_with (main8 ex_rt8 (str "nan")) ex_rlo ex_orl = Ok (
  lines_text [" ## datas.size(): 3"; " ## glyphs.size(): 3"; " ## sort"; " ## duplicate.size(): 2"; " ## datas.size(): 3"; " ## glyphs.size(): 3";
              " ## sort by word"; " ## sort by value"; " ## go"]%string ++
  ex_frames (found_text "1" "l o r ") ++ lines_text [" ## result1: l _ _ "; " ## result2: l _ _ "; " ## result3: l??"]%string, Exits 0).
Proof. vm_compute. reflexivity. Qed.
(** Two lists when no score is 1. *)
Definition ex_env3 (ds : list Z) : env8 := ex_env8 ds [[str "l"]; [str "i"; str "j"]; [str "k"]] [[]; []; []].
Example C95_lists : sound_env8 (ex_env3 [10; 10; 20]) /\ recognisable ex_i /\
  recognise_out8 (str "nan") (ex_env3 [10; 10; 20]) 0 ex_i =
    (let t := found_text "0.95" "l i j " ++ other_text "k " "0.9" ++ [10; 10] in
     let w := [str "l"; str "i"; str "j"] in Ok (mkf6 (str "l") (str "l") w (str "l") w, t ++ t)) /\
  recognise_out8 (str "nan") (ex_env3 [10; 0; 0]) 0 ex_i =
    (let w := [str "k"; str "i"; str "j"] in
     Ok (mkf6 (str "k") (str "k") w (str "k") w, found_text "1" "k i j " ++ other_text "l " "0.95" ++ [10; 10])).
Proof.
  split; [|split; [repeat split; vm_compute; congruence|split; vm_compute; reflexivity]].
  apply ex_sound8; [reflexivity|reflexivity| |intros g [<-|[<-|[<-|[]]]]; discriminate|vm_compute; reflexivity]. intros d [<-|[<-|[<-|[]]]]; lia.
Qed.
(** The premises of C95_trained6 and C95_trained8 hold for the runs above. *)
Example C95_nonvacuous : exists datas disk args, legal6 ex_rt6 /\ legal8 ex_rt8 /\ trainable6 ex_rlo /\
  write_datas_file (fun _ => 0) (isort Z.ltb) new_ctxs (write_glyphs ex_rlo) = Ok (Some datas) /\ image_of_bytes (picture ex_orl) 128 = Ok ex_orl /\
  box_searchable ex_orl /\ segment ex_orl = Ok ex_orl_boxes /\ Forall (small_character ex_orl) ex_orl_boxes /\
  files_are6 disk args (write_glyphs ex_rlo) datas (picture ex_orl) None.
Proof.
  destruct (write_datas_file (fun _ => 0) (isort Z.ltb) new_ctxs (write_glyphs ex_rlo)) as [[datas|]| | |] eqn:E; try (vm_compute in E; discriminate).
  exists datas, (fun n => if list_eqb n (str "g") then Some (write_glyphs ex_rlo) else if list_eqb n (str "f") then Some datas
                          else if list_eqb n (str "i") then Some (picture ex_orl) else None), [str "g"; str "f"; str "i"]. clear E.
  destruct C76_nonvacuous as (H1 & H2 & H3 & H4 & H5 & H6 & _). split; [exact H1|]. split; [exact ex_legal6|]. split; [exact H2|]. split; [reflexivity|].
  split; [exact H3|]. split; [exact H4|]. split; [exact H5|]. split.
  - eapply Forall_impl; [|exact H6]. intros b Hb im Hi. apply (Hb im Hi).
  - exists (str "g"), (str "f"), (str "i"), []. repeat split.
Qed.
(** A missing file of features. *)
Example C95_missing : forall rt nan, main6 rt nan (fun n => if list_eqb n (str "g") then Some (write_glyphs ex_rlo) else None) [str "p"; str "g"; str "f"; str "i"] = Ok ([], Aborts ExIo).
Proof. reflexivity. Qed.
