(** Lines of characters that no glyph is near. *)
From Verif Require Import Base ImageModel ImageSpec BoxModel BoxSpec StratModel DatasModel GlyphIoModel TrieModel ExtractSpec AssembleSpec PipelineSpec ReadSpec Ocr6Model Ocr6Spec Ocr8Spec.

(** No glyph is near the character, for each of the programs. *)
Definition strange (gs : list glyph) (img : image) (b : box) : Prop := forall im g, char_image img b im -> In g gs -> ~ ReadSpec.near im (gl_img g).
Definition strange6 z (gs : list glyph) (img : image) (b : box) : Prop := forall im g, char_image img b im -> In g gs -> ~ near6 z im g.
Definition strange8 z (gs : list glyph) (img : image) (b : box) : Prop := forall im g, char_image img b im -> In g gs -> ~ near_glyph8 z im g.
(** A mark by character, each followed by a space. *)
Definition marks (boxes : list box) : list Z := flat_map (fun _ => str "_ ") boxes.
(** The candidates of extract_text6 and extract_text8 for a line of such characters:
    none for a picture that is seen for the first time, the mark if it was seen. *)
Inductive strange_line (img : image) : Z -> list image -> list box -> list (list (list Z)) -> Prop :=
| sl_end x before : strange_line img x before [] []
| sl_char x before b boxes l amb im : char_image img b im -> (In im before /\ l = [str "_"] \/ ~ In im before /\ l = []) ->
    strange_line img (bx b + bw b) (im :: before) boxes amb ->
    strange_line img x before (b :: boxes) ((if x + 4 <? bx b then [[str " "]] else []) ++ l :: amb).
(** The characters are all different. *)
Definition all_different (img : image) (boxes : list box) : Prop := exists ims, Forall2 (char_image img) boxes ims /\ NoDup ims.
(** There is no space between the characters, nor before them. *)
Fixpoint without_breaks (x : Z) (boxes : list box) : Prop :=
  match boxes with [] => True | b :: boxes' => bx b <= x + 4 /\ without_breaks (bx b + bw b) boxes' end.
