(** What extract_text6 and extract_text8 must print. *)
From Verif Require Import Base ImageModel BoxModel StratModel ZoneModel DatasModel StreamModel GlyphIoModel DatasIoModel IndexModel DictIoModel TrieModel FloatModel FloatSpec FormatSpec RecogModel
  ExtractModel ExtractSpec Ocr6Model Ocr6Spec Ocr8Model Ocr8Spec ShowSpec PipelineModel ShowModel PrintModel PrintSpec.
From Coq Require Import Sorted SpecFloat QArith.
Local Open Scope Z_scope.

(** * The candidates *)
(** The value of a score, and its text. *)
Definition score_value (x : double) : Q := match x with S754_finite false m e => binary (Z.pos m) e | _ => 0%Q end.
Definition score_text (x : double) (t : list Z) : Prop := FormatSpec.number_text (score_value x) t.
(** The colours of a terminal. *)
Definition blue : list Z := [27] ++ str "[00;34m".
Definition red : list Z := [27] ++ str "[00;31m".
Definition plain : list Z := [27] ++ str "[0m".
(** The words of a candidate. *)
Definition words_text (words : list (list (list Z))) (p : prob) : list Z := flat_map (fun w => w ++ str " ") (labels6 words (pr_i p)).

(** One candidate by list of words, with the greatest score, from the greatest score
    to the least. *)
Record ranked (words : list (list (list Z))) (ps rs : list prob) : Prop := {
  rk_among : incl rs ps;
  rk_once : NoDup (map (fun p => labels6 words (pr_i p)) rs);
  rk_all : forall p, In p ps -> exists r, In r rs /\ labels6 words (pr_i r) = labels6 words (pr_i p) /\ dle (pr_p p) (pr_p r) = true;
  rk_order : StronglySorted (fun p q => dle (pr_p q) (pr_p p) = true) rs }.
(** The text for a list of candidates: the greatest score with the words of the
    candidates that have it, [best], then the words and the scores of the others. *)
Inductive listing (words : list (list (list Z))) : list prob -> list prob -> list Z -> Prop :=
| listing_none : listing words [] [] (blue ++ str "best: 0 ( )" ++ plain ++ [10; 10])
| listing_some p best rest t ts :
    (forall q, In q best -> pr_p q = pr_p p) -> (forall q, In q rest -> dlt (pr_p q) (pr_p p) = true) ->
    score_text (pr_p p) t -> Forall2 (fun q u => score_text (pr_p q) u) rest ts ->
    listing words (p :: best ++ rest) (p :: best)
      (blue ++ str "best: " ++ t ++ str " ( " ++ red ++ flat_map (words_text words) (p :: best) ++ plain ++ str ")" ++ [10; 10] ++
       flat_map (fun '(q, u) => red ++ words_text words q ++ plain ++ u ++ str "  ") (combine rest ts) ++ [10; 10]).

(** * A picture *)
(** The candidates that are left when no score is 1. *)
Definition reduced zsort (img : image) (cols : list (list fval)) (words : list (list (list Z))) (ps qs : list prob) : Prop :=
  forall q, In q qs <-> exists p, In p ps /\ kept6 zsort img cols words (pr_i p) /\ pr_i q = pr_i p /\ final_score zsort img cols p (pr_p q).
(** What is found for a picture with the candidates [ps], and the text: one list or,
    when no score is 1, two.  The words found are those of the best of the last list. *)
Inductive explained zsort (img : image) (cols : list (list fval)) (words : list (list (list Z))) (ps : list prob) : found6 -> list Z -> Prop :=
| explained_none t : ps = [] -> listing words [] [] t -> explained zsort img cols words ps (mkf6 unknown unknown [] unknown [unknown]) t
| explained_sure rs p best w ws t : ranked words ps rs -> listing words rs (p :: best) t -> dle d1 (pr_p p) = true ->
    flat_map (fun q => labels6 words (pr_i q)) (p :: best) = w :: ws ->
    explained zsort img cols words ps (mkf6 w w (w :: ws) w (w :: ws)) t
| explained_lost rs p best w ws t qs u : ranked words ps rs -> listing words rs (p :: best) t -> dle d1 (pr_p p) = false ->
    labels6 words (pr_i p) = w :: ws -> reduced zsort img cols words ps qs -> qs = [] -> listing words [] [] u ->
    explained zsort img cols words ps (mkf6 w unknown [] w [unknown]) (t ++ u)
| explained_reduced rs p best w ws t qs rs2 q best2 w2 ws2 u : ranked words ps rs -> listing words rs (p :: best) t -> dle d1 (pr_p p) = false ->
    labels6 words (pr_i p) = w :: ws -> reduced zsort img cols words ps qs -> ranked words qs rs2 -> listing words rs2 (q :: best2) u ->
    flat_map (fun q => labels6 words (pr_i q)) (q :: best2) = w2 :: ws2 ->
    explained zsort img cols words ps (mkf6 w w2 (w2 :: ws2) w (w2 :: ws2)) (t ++ u).
Definition explained6 (e : env6) (im : image) (f : found6) (t : list Z) : Prop :=
  exists value ps, (forall s, In s simple_strategies -> seen6 (r6_zones (e6_rt e)) im s (VNum (value s))) /\
    found_candidates (e6_cols e) (Z.of_nat (List.length (e6_words e))) value ps /\
    explained (r6_zones (e6_rt e)) im (e6_cols e) (e6_words e) ps f t.
Definition explained8 (e : env8) (im : image) (f : found6) (t : list Z) : Prop :=
  exists value ps, (forall s, In s simple_strategies -> seen6 (r6_zones (e8_rt e)) im s (VNum (value s))) /\
    found8 (e8_cols e) (Z.of_nat (List.length (e8_words e))) value ps /\
    explained (r6_zones (e8_rt e)) im (e8_cols e) (e8_words e) ps f t.

(** * The line *)
(** Each picture once, in its frame, with the text of its candidates. *)
Definition framed_texts (ims : list image) (ts : list (list Z)) : list Z := flat_map (fun '(im, t) => framed im ++ t) (combine ims ts).
Definition printed_with (rec : Z -> image -> res found6) (text : image -> found6 -> list Z -> Prop) (img : image) (boxes : list box) (out : list Z) : Prop :=
  exists pics ims ts, Forall2 (char_image img) boxes pics /\ first_seen pics ims /\
    Forall2 (fun im t => exists f, recognised6 rec im f /\ text im f t) ims ts /\ out = framed_texts ims ts.

(** * The other lines *)
Definition note_line (s : string) : list Z := str " ## " ++ str s ++ [10].
Definition sizes (datas glyphs : Z) : list Z := str " ## datas.size(): " ++ print_uint datas ++ [10] ++ str " ## glyphs.size(): " ++ print_uint glyphs ++ [10].
Definition head6 (dict : option bool) (n : Z) : list Z :=
  dict_line dict ++ sizes n n ++ note_line "sort" ++ note_line "sort by word" ++ note_line "sort by value" ++ note_line "go".
(** [repeated] is the number of glyphs taken for repetitions. *)
Definition head8 (dict : option bool) (n : Z) (repeated : Z) : list Z :=
  dict_line dict ++ sizes n n ++ note_line "sort" ++
  (if 1 <? n then str " ## duplicate.size(): " ++ print_uint repeated ++ [10] else []) ++
  sizes n n ++ note_line "sort by word" ++ note_line "sort by value" ++ note_line "go".
Definition results_lines (r : list Z * list Z * list Z) : list Z :=
  let '(r1, r2, r3) := r in
  str " ## result1: " ++ r1 ++ [10] ++ str " ## result2: " ++ r2 ++ [10] ++ str " ## result3: " ++ r3 ++ [10].

(** The files of the arguments: glyphs, features, image, and the optional dictionary. *)
Definition disk_files6 (disk : list Z -> option (list Z)) (args : list (list Z)) (glyphs datas image : option (list Z)) (dict : option (list Z)) : Prop :=
  exists fg fd fi options, args = fg :: fd :: fi :: options /\ disk fg = glyphs /\ disk fd = datas /\ disk fi = image /\
    option_file disk (nth_error options 0) dict.
Definition files_are6 disk args (glyphs datas image : list Z) dict : Prop := disk_files6 disk args (Some glyphs) (Some datas) (Some image) dict.

(** The files that are refused, a missing one among them, with what is printed. *)
Definition contents {A} (read : istream -> res (A * istream)) (file : option (list Z)) : res A :=
  match file with Some bytes => load_file read bytes | None => Throw ExIo end.
Inductive refused_files (glyphs datas dict : option (list Z)) : list Z -> exn -> Prop :=
| refused_dict x : load_optional read_dict [] dict = Throw x -> refused_files glyphs datas dict [] x
| refused_datas nodes x : load_optional read_dict [] dict = Ok nodes -> contents (read_datas all_strategies) datas = Throw x ->
    refused_files glyphs datas dict (dict_line (dict_shown dict nodes)) x
| refused_glyphs nodes cols x : load_optional read_dict [] dict = Ok nodes -> contents (read_datas all_strategies) datas = Ok cols ->
    contents read_glyphs glyphs = Throw x ->
    refused_files glyphs datas dict (dict_line (dict_shown dict nodes) ++ str " ## datas.size(): " ++ print_uint (datas_size cols) ++ [10]) x
| refused_sizes nodes cols gs : load_optional read_dict [] dict = Ok nodes -> contents (read_datas all_strategies) datas = Ok cols ->
    contents read_glyphs glyphs = Ok gs -> vsize gs <> datas_size cols ->
    refused_files glyphs datas dict (dict_line (dict_shown dict nodes) ++ sizes (datas_size cols) (vsize gs)) ExBadLength.

(** What the program prints and how it ends, from the result of the recognition:
    [head] is printed before the pictures. *)
Definition shown_as (r : res (list Z * list Z * list Z)) (head : list Z) (chars : list Z -> Prop) (m : res (list Z * ended)) : Prop :=
  match r with
  | Ok r => exists out, chars out /\ m = Ok (head ++ out ++ results_lines r, Exits 0)
  | Throw x => exists out, m = Ok (head ++ out, Aborts x)
  | UB => m = UB
  | NoFuel => m = NoFuel
  end.
