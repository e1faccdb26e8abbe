(** What extract_text6 must print after the programs that learn images and texts. *)
From Verif Require Import Base ImageModel PnmModel BoxModel BoxSpec StratModel DatasModel GlyphIoModel DictIoModel TrieModel RecogSpec ExtractSpec LearnSpec Ocr6Model Ocr6Spec
  PipelineModel PipelineSpec ReadSpec ShowModel ShowSpec PrintModel PrintSpec OcrOutModel OcrOutSpec ChainSpec.

(** The simple features of a picture, none of them turned, are in the tenths of those
    of a picture that was learnt: extract_text6 turns no picture that it reads. *)
Definition matches6 (im learnt : image) : Prop :=
  forall s a b, In s simple_strategies -> simple_value im (mkst (st_algo s) false) a -> simple_value learnt s b -> tenth a = tenth b.
(** The glyphs that match a picture have this word only. *)
Definition taught6 (gs : list glyph) (im : image) (w : list Z) : Prop :=
  (exists g, In g gs /\ matches6 im (gl_img g)) /\ forall g v, In g gs -> matches6 im (gl_img g) -> In v (gl_views g) -> vw_word v = w.
(** So do the pictures of the lessons. *)
Definition learnt6 (ls : list lesson) (im : image) (w : list Z) : Prop :=
  (exists im' w', teaches ls im' w' /\ matches6 im im') /\ forall im' w', teaches ls im' w' -> matches6 im im' -> w' = w.
(** Pictures of the lessons that match have the same word. *)
Definition unambiguous6 (ls : list lesson) : Prop :=
  forall im w im' w', teaches ls im w -> teaches ls im' w' -> matches6 im im' -> w = w'.

(** The candidates of a line whose words are known. *)
Fixpoint heard6 (x : Z) (boxes : list box) (ws : list (list Z)) : list (list (list Z)) :=
  match boxes, ws with b :: boxes', w :: ws' => (if x + 4 <? bx b then [[str " "]] else []) ++ [w] :: heard6 (bx b + bw b) boxes' ws' | _, _ => [] end.
Definition words_line (ws : list (list Z)) : list Z := flat_map (fun w => w ++ str " ") ws.
(** The text below a picture whose word is known: the word with the score 1, and the
    words of other glyphs that are near it, with the score 0. *)
Definition best_text (w : list Z) : list Z := blue ++ str "best: 1 ( " ++ red ++ w ++ str " " ++ plain ++ str ")" ++ [10; 10].
Definition zero_text (others : list (list (list Z))) : list Z := flat_map (fun l => red ++ words_line l ++ plain ++ str "0  ") others ++ [10; 10].

(** extract_text6 prints a line of words that the files of glyphs and features teach;
    these hold n glyphs. *)
Definition prints_words6 (ok : image -> list Z -> Prop) (ws0 : list (list Z)) (glyphs datas : list Z) (n : Z) : Prop :=
  forall rt nan disk prog args bytes img boxes ws dict spell, legal6 rt -> files_are6 disk args glyphs datas bytes dict ->
    image_of_bytes bytes 128 = Ok img -> box_searchable img -> segment img = Ok boxes ->
    Forall2 (fun b w => forall im, char_image img b im -> recognisable im /\ ok im w) boxes ws -> dict_spell ws0 dict spell ->
    exists nodes pics ims ts, load_optional read_dict [] dict = Ok nodes /\ Forall2 (char_image img) boxes pics /\ first_seen pics ims /\
      Forall2 (fun im t => exists w others, ok im w /\ t = best_text w ++ zero_text others) ims ts /\
      main6 rt nan disk (prog :: args) =
        Ok (head6 (dict_shown dict nodes) n ++ framed_texts ims ts ++ results_lines (words_line ws, words_line ws, text6 spell (heard6 0 boxes ws)), Exits 0).
Definition prints_learnt6 (ls : list lesson) : list Z -> list Z -> Z -> Prop := prints_words6 (learnt6 ls) (flat_map le_words ls).
