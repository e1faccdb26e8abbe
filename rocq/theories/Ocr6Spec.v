(** What main/extract_text6.cpp is expected to compute. *)
From Verif Require Import Base SortModel ImageModel BoxModel StratModel ZoneModel DatasModel DatasSpec FloatModel FloatSpec RecogModel RecogSpec ExtractSpec AssembleSpec
  TrieModel StreamModel GlyphIoModel GlyphIoSpec IndexModel Ocr6Model.
From Coq Require Import Sorted SpecFloat Permutation.

(** The feature by which the rows are ordered. *)
Definition first_feature : strategy := mkst Dvdirection true.
(** Row [i] of the column of feature [s] contains [v]. *)
Definition cell6 (cols : list (list fval)) (s : strategy) (i : Z) (v : fval) : Prop :=
  0 <= i /\ exists c, In (s, c) (combine all_strategies cols) /\ nth_error c (Z.to_nat i) = Some v.
(** The values are compared by tenths. *)
Definition tenth (n : Z) : Z := n / 10.

(** [n] rows in the order of the first feature, whose values are those of a feature. *)
Record table6 (cols : list (list fval)) (n : Z) : Prop := {
  t6_columns : List.length cols = List.length all_strategies;
  t6_rows : forall s c, In (s, c) (combine all_strategies cols) -> Z.of_nat (List.length c) = n /\ forall v, In v c -> typed s v;
  t6_size : n + 63 < 4294967296;
  t6_first : forall i a, cell6 cols first_feature i (VNum a) -> tenth a <= 20;
  t6_order : forall i j a b, i <= j -> cell6 cols first_feature i (VNum a) -> cell6 cols first_feature j (VNum b) -> a <= b }.

(** The rows that are candidates for the values of an image: the first feature at two
    tenths at most, the others in the same tenth. *)
Definition close6 (cols : list (list fval)) (n : Z) (value : strategy -> Z) (i : Z) : Prop :=
  0 <= i < n /\
  (forall a, cell6 cols first_feature i (VNum a) -> Z.abs (tenth a - tenth (value first_feature)) <= 2) /\
  (forall s a, In s simple_strategies -> s <> first_feature -> cell6 cols s i (VNum a) -> tenth a = tenth (value s)).
(** The score of a candidate is 1 when its first feature is in the same tenth,
    and 0 otherwise. *)
Definition score_of (cols : list (list fval)) (value : strategy -> Z) (i : Z) (x : double) : Prop :=
  forall a, cell6 cols first_feature i (VNum a) -> x = if tenth a =? tenth (value first_feature) then d1 else d0.
(** Values in the range of the features. *)
Definition in_range6 (value : strategy -> Z) : Prop :=
  forall s, In s simple_strategies -> 0 <= value s /\ tenth (value s) <= range s / 10.
(** The candidates, in the order of the rows. *)
Definition found_candidates (cols : list (list fval)) (n : Z) (value : strategy -> Z) (ps : list prob) : Prop :=
  StronglySorted Z.lt (map pr_i ps) /\
  (forall i, In i (map pr_i ps) <-> close6 cols n value i) /\
  forall p, In p ps -> score_of cols value (pr_i p) (pr_p p).

(** The words of the glyphs: [words] has a list of them for each row. *)
Definition labels6 (words : list (list (list Z))) (i : Z) : list (list Z) := nth (Z.to_nat i) words [].
(** The other rows whose first word is the same. *)
Definition same_word6 (words : list (list (list Z))) (i j : Z) : Prop :=
  0 <= i < Z.of_nat (List.length words) /\ 0 <= j < Z.of_nat (List.length words) /\ i <> j /\
  hd_error (labels6 words i) = hd_error (labels6 words j).
(** The order in which they are compared: increasing, but the last one first when it
    is after the row. *)
Definition rest6 (words : list (list (list Z))) (i : Z) : list Z :=
  filter (fun j => negb (i =? j) && match hd_error (labels6 words i), hd_error (labels6 words j) with
    | Some a, Some b => if list_eq_dec Z.eq_dec a b then true else false | _, _ => false end) (zrange (Z.of_nat (List.length words))).
Definition scan6 (words : list (list (list Z))) (i : Z) : list Z :=
  let o := rest6 words i in let t := last o i in if i <? t then t :: removelast o else o.

(** A feature of a character: the true one, that of the tables, and the one the
    program computes, always from the image that is not turned. *)
Definition true6 (zsort : list Z -> list Z) (img : image) (s : strategy) (v : fval) : Prop :=
  exists img90, rotate90 img = Ok img90 /\ feature_alone zsort s img img90 = Ok v.
Definition seen6 (zsort : list Z -> list Z) (img : image) (s : strategy) (v : fval) : Prop :=
  true6 zsort img (mkst (st_algo s) false) v.

(** Rows with the same tenths for all the simple features. *)
Definition certain6 (cols : list (list fval)) (n : Z) (value : strategy -> Z) (i : Z) : Prop :=
  close6 cols n value i /\ forall a, cell6 cols first_feature i (VNum a) -> tenth a = tenth (value first_feature).
(** Rows resembling the image by half of each complex feature. *)
Definition plausible6 (zsort : list Z -> list Z) (img : image) (cols : list (list fval)) (i : Z) : Prop :=
  forall s a b, In s complex_strategies -> seen6 zsort img s a -> cell6 cols s i b -> 50 <= percentage s b a.
(** Rows whose word is on no other row, or on another one whose zones and zone
    proportions resemble those of the image by half. *)
Definition alike6 (zsort : list Z -> list Z) (img : image) (cols : list (list fval)) (j : Z) : Prop :=
  (forall a b, seen6 zsort img (mkst Zone false) a -> cell6 cols (mkst Zone false) j b -> 50 <= percentage (mkst Zone false) b a) /\
  (forall a b, seen6 zsort img (mkst ProportionalityZone false) (VVec a) -> cell6 cols (mkst ProportionalityZone false) j (VVec b) ->
     exists v, pz_compute b a = Ok v /\ 50 <= v).
Definition supported6 (zsort : list Z -> list Z) (img : image) (cols : list (list fval)) (words : list (list (list Z))) (i : Z) : Prop :=
  (forall j, ~ same_word6 words i j) \/ exists j, same_word6 words i j /\ alike6 zsort img cols j.
Definition retained6 zsort img cols words (value : strategy -> Z) (i : Z) : Prop :=
  close6 cols (Z.of_nat (List.length words)) value i /\ plausible6 zsort img cols i /\ supported6 zsort img cols words i.

(** [ks] is one row by list of words of the rows [kept], in an order that is not
    specified. *)
Record enumerates (words : list (list (list Z))) (kept : Z -> Prop) (ks : list Z) : Prop := {
  en_kept : forall k, In k ks -> kept k;
  en_once : NoDup (map (labels6 words) ks);
  en_all : forall i, kept i -> exists k, In k ks /\ labels6 words k = labels6 words i }.
Definition unknown : list Z := str "_".
Definition head_word (words : list (list (list Z))) (ks : list Z) (w : list Z) : Prop :=
  exists k ks' l, ks = k :: ks' /\ labels6 words k = w :: l.

(** * The decision *)
(** The candidates [ps] have scores.  The score of a row that is retained is
    multiplied by the percentage of its alternations. *)
Definition kept6 zsort img cols words (i : Z) : Prop := plausible6 zsort img cols i /\ supported6 zsort img cols words i.
Definition final_score zsort img cols (p : prob) (x : double) : Prop :=
  forall a b, seen6 zsort img (mkst Alternations false) a -> cell6 cols (mkst Alternations false) (pr_i p) b ->
    x = share (pr_p p) (percentage (mkst Alternations false) b a) 100.
(** The rows of the greatest score. *)
Definition best6 zsort img cols words (ps : list prob) (i : Z) : Prop :=
  exists p x, In p ps /\ pr_i p = i /\ kept6 zsort img cols words i /\ final_score zsort img cols p x /\
    forall q y, In q ps -> kept6 zsort img cols words (pr_i q) -> final_score zsort img cols q y -> dle y x = true.
Definition decision6 zsort (img : image) (cols : list (list fval)) (words : list (list (list Z))) (ps : list prob) (f : found6) : Prop :=
  (** no candidate *)
  (ps = [] /\ f = mkf6 unknown unknown [] unknown [unknown]) \/
  (** those whose score is 1 *)
  (exists ks w, enumerates words (fun i => exists p, In p ps /\ pr_i p = i /\ dle d1 (pr_p p) = true) ks /\ head_word words ks w /\
     f = mkf6 w w (flat_map (labels6 words) ks) w (flat_map (labels6 words) ks)) \/
  (** otherwise the best of those that are retained *)
  ((forall p, In p ps -> dle d1 (pr_p p) = false) /\
   exists p w l, In p ps /\ (forall q, In q ps -> dle (pr_p q) (pr_p p) = true) /\ labels6 words (pr_i p) = w :: l /\
     ((forall q, In q ps -> ~ kept6 zsort img cols words (pr_i q)) /\ f = mkf6 w unknown [] w [unknown] \/
      exists ks w2, enumerates words (best6 zsort img cols words ps) ks /\ head_word words ks w2 /\
        f = mkf6 w w2 (flat_map (labels6 words) ks) w (flat_map (labels6 words) ks))).

(** The result for a character. *)
Definition outcome6 zsort (img : image) (cols : list (list fval)) (words : list (list (list Z))) (f : found6) : Prop :=
  exists value, (forall s, In s simple_strategies -> seen6 zsort img s (VNum (value s))) /\
    let n := Z.of_nat (List.length words) in
    (** no candidate *)
    ((forall i, ~ close6 cols n value i) /\ f = mkf6 unknown unknown [] unknown [unknown]) \/
    (** the rows with the same tenths *)
    (exists ks w, enumerates words (certain6 cols n value) ks /\ head_word words ks w /\
       f = mkf6 w w (flat_map (labels6 words) ks) w (flat_map (labels6 words) ks)) \/
    (** otherwise the rows retained *)
    ((forall i, ~ certain6 cols n value i) /\ exists k w l, close6 cols n value k /\ labels6 words k = w :: l /\
       ((forall i, ~ retained6 zsort img cols words value i) /\ f = mkf6 w unknown [] w [unknown] \/
        exists ks w2, enumerates words (retained6 zsort img cols words value) ks /\ head_word words ks w2 /\
          f = mkf6 w w2 (flat_map (labels6 words) ks) w (flat_map (labels6 words) ks))).

(** What a decision uses. *)
Record base6 (rt : runtime6) (cols : list (list fval)) (words : list (list (list Z))) (by_word : list (list Z)) : Prop := {
  b6_columns : List.length cols = List.length all_strategies;
  b6_rows : forall s c, In (s, c) (combine all_strategies cols) -> Z.of_nat (List.length c) = Z.of_nat (List.length words) /\ forall v, In v c -> typed s v;
  b6_size : Z.of_nat (List.length words) < 4294967296;
  b6_words : forall g, In g words -> g <> [];
  b6_by_word : data_by_word words = Ok by_word;
  b6_views : forall words, is_std_sort (lt6 words) (r6_views rt words);
  b6_probs : is_std_sort gt_prob (r6_probs rt);
  b6_zones : is_std_sort Z.ltb (r6_zones rt) }.
(** What the program builds from its files. *)
Record sound_env6 (e : env6) : Prop := {
  se_table : table6 (e6_cols e) (Z.of_nat (List.length (e6_words e)));
  se_words : forall g, In g (e6_words e) -> g <> [];
  se_search : make_search6 (e6_cols e) = Ok (e6_search e);
  se_by_word : data_by_word (e6_words e) = Ok (e6_by_word e);
  se_views : forall words, is_std_sort (lt6 words) (r6_views (e6_rt e) words);
  se_probs : is_std_sort gt_prob (r6_probs (e6_rt e));
  se_zones : is_std_sort Z.ltb (r6_zones (e6_rt e)) }.
(** The comparisons of zone proportions never divide by zero. *)
Definition comparable6 zsort (img : image) (cols : list (list fval)) : Prop :=
  forall j a b, seen6 zsort img (mkst ProportionalityZone false) (VVec a) -> cell6 cols (mkst ProportionalityZone false) j (VVec b) ->
    (forall y, In y b -> 0 <= y <= 100) /\ forall x y, In (x, y) (combine b a) -> 0 < x + y.

(** The comparison with row [j] divides by zero: its zones resemble those of the
    image by half, and there is a zone in which both proportions are zero. *)
Definition divided6 zsort (img : image) (cols : list (list fval)) (j : Z) : Prop :=
  (forall a b, seen6 zsort img (mkst Zone false) a -> cell6 cols (mkst Zone false) j b -> 50 <= percentage (mkst Zone false) b a) /\
  (forall a b, seen6 zsort img (mkst ProportionalityZone false) (VVec a) -> cell6 cols (mkst ProportionalityZone false) j (VVec b) -> common_zero b a).
(** It is reached for row [i], no row before it being like the image. *)
Definition divides6 zsort (img : image) (cols : list (list fval)) (words : list (list (list Z))) (i : Z) : Prop :=
  exists before j after, scan6 words i = before ++ j :: after /\ (forall k, In k before -> ~ alike6 zsort img cols k) /\ divided6 zsort img cols j.
(** The decision among [ps] is not defined: no score is 1, and a division is reached. *)
Definition undecided6 zsort (img : image) (cols : list (list fval)) (words : list (list (list Z))) (ps : list prob) : Prop :=
  (forall p, In p ps -> dle d1 (pr_p p) = false) /\ exists p, In p ps /\ plausible6 zsort img cols (pr_i p) /\ divides6 zsort img cols words (pr_i p).
Definition undefined6 zsort (img : image) (cols : list (list fval)) (words : list (list (list Z))) : Prop :=
  exists value, (forall s, In s simple_strategies -> seen6 zsort img s (VNum (value s))) /\
    let n := Z.of_nat (List.length words) in
    (forall i, ~ certain6 cols n value i) /\ exists i, close6 cols n value i /\ plausible6 zsort img cols i /\ divides6 zsort img cols words i.

(** The simple features of a row and of the image are in the same tenths. *)
Definition identified6 zsort (img : image) (cols : list (list fval)) (n i : Z) : Prop :=
  0 <= i < n /\
  forall s a b, In s simple_strategies -> cell6 cols s i (VNum a) -> seen6 zsort img s (VNum b) -> tenth a = tenth b.
(** The row of an image that has been learnt. *)
Definition own_row6 zsort (img : image) (cols : list (list fval)) (n i : Z) : Prop :=
  0 <= i < n /\ forall s v, In s simple_strategies -> cell6 cols s i v -> true6 zsort img s v.
(** Turning the image does not change the tenths of its simple features. *)
Definition unchanged_by_turn zsort (img : image) : Prop :=
  forall s a b, In s simple_strategies -> true6 zsort img s (VNum a) -> seen6 zsort img s (VNum b) -> tenth a = tenth b.

(** * The line *)
(** What is found for a picture, whatever was recognised before. *)
Definition recognised6 (rec : Z -> image -> res found6) (im : image) (f : found6) : Prop := forall n, rec n im = Ok f.
(** The pictures of a line with what is found for them, and the list of the
    candidates, in which a break is the word " ".  A picture that was already there
    ([before]) gets the words of the cache. *)
Inductive line6 (rec : Z -> image -> res found6) (img : image) : Z -> list image -> list box -> list found6 -> list (list (list Z)) -> Prop :=
| l6_end x before : line6 rec img x before [] [] []
| l6_char x before b boxes f fs l amb im : char_image img b im -> recognised6 rec im f ->
    (In im before /\ l = f6_words f \/ ~ In im before /\ l = f6_amb f) ->
    line6 rec img (bx b + bw b) (im :: before) boxes fs amb ->
    line6 rec img x before (b :: boxes) (f :: fs) ((if x + 4 <? bx b then [[str " "]] else []) ++ l :: amb).
Definition can_read6 (rec : Z -> image -> res found6) (img : image) (b : box) : Prop := forall im, char_image img b im -> exists f, recognised6 rec im f.
(** The first two results: a word by character. *)
Definition spaced (word : found6 -> list Z) (fs : list found6) : list Z := flat_map (fun f => word f ++ str " ") fs.

(** * The text *)
(** The elements that end a word: unknown characters, blanks and some marks. *)
Definition mark6 (c : list (list Z)) : bool :=
  match c with [] => true | [m] :: _ => existsb (Z.eqb m) [32; 39; 44; 46; 33; 63; 34] | _ => false end.
(** The text of a list of candidates: each group of consecutive elements that are
    not marks is replaced by its spelling if it has one. *)
Section Render.
Context (spell : list (list (list Z)) -> option (list Z)).
Fixpoint render6 (word : list (list (list Z))) (line : list (list (list Z))) : list Z :=
  match line with
  | [] => flush spell word
  | c :: line' => if mark6 c then flush spell word ++ shown c ++ render6 [] line' else render6 (word ++ [c]) line'
  end.
End Render.
(** The marks at the beginning are left out. *)
Fixpoint without_leading (line : list (list (list Z))) : list (list (list Z)) :=
  match line with c :: line' => if mark6 c then without_leading line' else line | [] => [] end.
Definition text6 (spell : list (list (list Z)) -> option (list Z)) (line : list (list (list Z))) : list Z := render6 spell [] (without_leading line).

(** * The whole program *)
Definition legal6 (rt : runtime6) : Prop :=
  (forall data, is_std_sort (index_lt data) (r6_first rt data)) /\ (forall words, is_std_sort (lt6 words) (r6_views rt words)) /\
  is_std_sort gt_prob (r6_probs rt) /\ is_std_sort Z.ltb (r6_zones rt).
Definition trainable6 (gs : list glyph) : Prop :=
  (forall g, In g gs -> storable g /\ recognisable (gl_img g) /\ gl_views g <> []) /\ vsize gs + 63 < 4294967296.
(** Without the consecutive repetitions. *)
Fixpoint squeeze (l : list (list Z)) : list (list Z) :=
  match l with
  | a :: l' => match l' with b :: _ => if list_eq_dec Z.eq_dec a b then squeeze l' else a :: squeeze l' | [] => [a] end
  | [] => []
  end.
(** The rows of the tables are the glyphs in some order. *)
Definition built6 (z : list Z -> list Z) (gs : list glyph) (e : env6) : Prop :=
  sound_env6 e /\ exists gs', Permutation gs gs' /\ List.length (e6_words e) = List.length gs' /\
    forall i g, nth_error gs' i = Some g -> labels6 (e6_words e) (Z.of_nat i) = squeeze (map vw_word (gl_views g)) /\
      forall s v, In s all_strategies -> (cell6 (e6_cols e) s (Z.of_nat i) v <-> true6 z (gl_img g) s v).
(** The candidates of a picture are words of glyphs that are near it. *)
Definition near6 z (im : image) (g : glyph) : Prop :=
  forall s a b, In s simple_strategies -> seen6 z im s (VNum a) -> true6 z (gl_img g) s (VNum b) ->
    Z.abs (tenth a - tenth b) <= if strategy_eqb s first_feature then 2 else 0.
Definition named6 z (gs : list glyph) (im : image) (l : list (list Z)) : Prop :=
  forall w, In w l -> w = unknown \/ exists g, In g gs /\ near6 z im g /\ In w (map vw_word (gl_views g)).
(** The glyphs with the same tenths are found. *)
Definition same6 z (im : image) (g : glyph) : Prop :=
  forall s a b, In s simple_strategies -> seen6 z im s (VNum a) -> true6 z (gl_img g) s (VNum b) -> tenth a = tenth b.
Definition complete6 z (gs : list glyph) (im : image) (l : list (list Z)) : Prop :=
  forall g w, In g gs -> same6 z im g -> In w (map vw_word (gl_views g)) -> In w l.
(** The pictures that can be read: small, and comparable with the glyphs or with the
    tenths of one of them. *)
Definition comparable_glyphs z (gs : list glyph) (im : image) : Prop :=
  forall g a b, In g gs -> seen6 z im (mkst ProportionalityZone false) (VVec a) -> true6 z (gl_img g) (mkst ProportionalityZone false) (VVec b) ->
    forall x y, In (x, y) (combine b a) -> 0 < x + y.
Definition readable6 z (gs : list glyph) (img : image) (b : box) : Prop :=
  forall im, char_image img b im -> recognisable im /\ (comparable_glyphs z gs im \/ exists g, In g gs /\ same6 z im g).
