(** Property C100: the feature table of a file of any bytes. *)
From Verif Require Import Base SortModel ImageModel StreamModel GlyphFileSpec StratModel DatasModel DatasIoModel DatasIoSpec GlyphIoModel TableTextSpec TableTextProofs
  LearnModel ShowModel PrintModel TrieModel RecogWitness PropPipeline PropPrint.

(** A blank file is undefined behaviour; any other file is read as the values written in
    it, up to the first thing that is not one, and it is accepted when that is its end. *)
Theorem C100_outcome : forall ss text,
  blank text /\ load_file (read_datas ss) text = UB \/
  ~ blank text /\ exists cols b, table_text ss text cols b /\ (forall cols' b', table_text ss text cols' b' -> cols = cols' /\ b = b') /\
    load_file (read_datas ss) text = (if b then Ok cols else Throw ExReadFile).
Proof. exact table_outcome. Qed.
Print Assumptions C100_outcome.

(** A file with all the values that it announces is accepted, and its table is complete. *)
Theorem C100_whole : forall ss text cols, whole_table ss text cols -> load_file (read_datas ss) text = Ok cols /\ exists n, table n ss cols.
Proof. exact whole_loads. Qed.
Print Assumptions C100_whole.

(** In any case the values are those of their features, and a column has all the rows that
    are announced or none. *)
Theorem C100_values : forall ss text cols b, table_text ss text cols b -> exists n, Z.of_nat n < 18446744073709551616 /\
  Forall2 (fun s c => (c = [] \/ List.length c = n) /\ Forall (value_of (st_algo s)) c) ss cols.
Proof. exact table_values. Qed.
Print Assumptions C100_values.

Definition ex_two : list strategy := firstn 2 all_strategies.
Example C100_nonvacuous :
  load_file (read_datas ex_two) (str " +2 1 2 -1 007") = Ok [[VNum 1; VNum 2]; [VNum 4294967295; VNum 7]] /\
  load_file (read_datas ex_two) (str "2 1 2 3") = Ok [[VNum 1; VNum 2]; [VNum 3; VNum 0]] /\
  load_file (read_datas ex_two) (str "2 4294967296") = Ok [[VNum 4294967295; VNum 0]; []] /\
  load_file (read_datas ex_two) (str "2 1 2 3 4 x") = Throw ExReadFile /\
  load_file (read_datas ex_two) (str "x") = Throw ExReadFile /\
  load_file (read_datas ex_two) (str " ") = UB.
Proof. repeat split; vm_compute; reflexivity. Qed.

(** C58: ocr2_extract_text with a feature file that is cut.  It is not refused: the
    program reads out of the table, or it does not recognise the characters. *)
Definition cut_run (k : nat) : res (list Z * ended) :=
  '(gf, _) <- learn_image ex_line (str "l :") (str "f") ;;
  df <- write_datas_file (fun _ => 0) (isort Z.ltb) new_ctxs gf ;;
  ocr2_main ex_rt (str "-nan") new_ctxs
    (fun n => if list_eqb n (str "g") then Some gf else if list_eqb n (str "f") then option_map (firstn k) df
              else if list_eqb n (str "i") then Some (ex_bytes ex_line) else None)
    [str "ocr2"; str "g"; str "f"; str "i"].
Theorem C58_program_refuted : cut_run 20 = UB /\
  cut_run 40 = Ok (lines_text
    [" ## datas.size(): 2"; " ## glyphs.size(): 2"; " ## go"; ":::"; ":x:"; ":x:"; ":x:"; ":::"; ""; ":::"; ":x:"; ":-:"; ":x:"; ":::"; "";
     " ## result: ?"; "unrecognized_count: 1"; "count: 2"; "unrecognized_rate: 100"]%string, Exits 0) /\
  cut_run 400 = Ok (lines_text
    [" ## datas.size(): 2"; " ## glyphs.size(): 2"; " ## go"; ":::"; ":x:"; ":x:"; ":x:"; ":::"; "l "; ":::"; ":x:"; ":-:"; ":x:"; ":::"; ": ";
     " ## result: l :"; "unrecognized_count: 0"; "count: 2"; "unrecognized_rate: 0"]%string, Exits 0).
Proof. repeat split; vm_compute; reflexivity. Qed.
Print Assumptions C58_program_refuted.
