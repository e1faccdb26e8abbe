(** Model of the report printed by main/ocr2_extract_text.cpp. *)
From Verif Require Import Base DatasModel FloatModel PipelineModel StratModel ZoneModel.
From Coq Require Import SpecFloat.

(** ocr2_extract_text.cpp 194: double(unrecognized_count * 100) divided by
    (ambiguous.empty()? ambiguous.size() :1). *)
Definition unrecognized_rate (count size : Z) : double :=
  ddiv (double_of (u32 (count * 100))) (double_of (if size =? 0 then size else 1)).

(** ocr2_extract_text.cpp 190-196: the figures printed. *)
Record figures := mkfigures { f_text : list Z; f_unrecognized : Z; f_count : Z; f_rate : double }.
Definition report (rt : runtime) (cx : ctxs) (glyphs datas image : list Z) (lines dict : option (list Z)) : res figures :=
  '(text, count, size) <- extract_text rt cx glyphs datas image lines dict ;;
  Ok (mkfigures text count size (unrecognized_rate count size)).
