(** The recognition of an image, stated from its features and those of the table. *)
From Verif Require Import Base SortModel ImageModel ImageSpec StratModel ZoneModel DatasModel DatasSpec
  IndexModel IndexSpec FloatModel FloatSpec RecogModel.
From Coq Require Import Sorted.

(** Images for which no feature overflows. *)
Definition recognisable (img : image) : Prop :=
  wf_image img /\ 1 <= iw img /\ 1 <= ih img /\
  100 * (iw img * ih img * ih img) < 2147483648 /\ 100 * (iw img * ih img * iw img) < 2147483648.

(** The greatest value of a simple feature. *)
Definition range (s : strategy) : Z :=
  match st_algo s with Hdirection | Hgravity | Dvdirection | Dvgravity => 200 | _ => 100 end.

(** The values of a feature. *)
Definition typed (s : strategy) (v : fval) : Prop :=
  match st_algo s with
  | Alternations => exists l, v = VAlts l /\ List.length l = 7%nat
  | Zone => exists l, v = VArr l /\ List.length l = 7%nat
  | ProportionalityZone => exists l, v = VVec l
  | _ => exists n, v = VNum n /\ 0 <= n < 4294967296
  end.

(** Row i of the column of s. *)
Definition cell (t : table) (s : strategy) (i : Z) (v : fval) : Prop :=
  0 <= i /\ exists c, In (s, c) (combine (t_strategies t) (t_cols t)) /\ nth_error c (Z.to_nat i) = Some v.
Definition rows (t : table) : Z := Z.of_nat (List.length (t_glyphs t)).
Definition first_column (t : table) : list Z := nums_of (nth 0 (t_cols t) []).

(** A table as the program builds it: one row per glyph, each glyph with a label,
    the indexes being those of the three index builders. *)
Record sound_table (t : table) : Prop := {
  st_strategies : t_strategies t = all_strategies;
  st_columns : List.length (t_cols t) = List.length all_strategies;
  st_rows : forall s c, In (s, c) (combine all_strategies (t_cols t)) ->
              Z.of_nat (List.length c) = rows t /\ forall v, In v c -> typed s v;
  st_first : exists sort, is_std_sort (index_lt (first_column t)) sort /\
              t_first t = indexes_ordered sort (first_column t);
  st_labels : forall g, In g (t_glyphs t) -> g <> [];
  st_size : rows t < 4294967296;
  st_by_words : indexes_by_words (t_glyphs t) = Ok (t_by_words t);
  st_ids : exists sort, is_std_sort (ref_lt (t_glyphs t)) sort /\
              t_ids t = views_indexes_ordered sort (t_glyphs t) }.

(** The input: an image, its quarter turn and legal sorts. *)
Definition sound_input (inp : input) : Prop :=
  recognisable (in_img inp) /\ rotate90 (in_img inp) = Ok (in_img90 inp) /\ is_std_sort Z.ltb (in_zsort inp).
(** The feature of the image. *)
Definition feature (inp : input) (s : strategy) (v : fval) : Prop :=
  feature_alone (in_zsort inp) s (in_img inp) (in_img90 inp) = Ok v.

(** Rows whose simple features are all within a tenth of the range. *)
Definition candidate (inp : input) (t : table) (i : Z) : Prop :=
  0 <= i < rows t /\
  forall s a b, In s simple_strategies -> feature inp s (VNum a) -> cell t s i (VNum b) ->
    Z.abs (a - b) <= range s / 10.

(** Similarity, in percents. *)
Definition percentage (s : strategy) (a b : fval) : Z :=
  match a, b with
  | VNum x, VNum y =>
    match st_algo s with
    | Hbar => if x =? y then 100 else 0
    | _ => 100 - 100 * Z.abs (x - y) / range s
    end
  | VAlts l, VAlts l' =>
    100 * Z.of_nat (List.length (filter (fun '(x, y) => alt_eqb x y) (combine l l'))) / Z.of_nat (List.length l)
  | VArr l, VArr l' =>
    100 * Z.of_nat (List.length (filter (fun '(x, y) => Z.eqb x y) (combine l l'))) / Z.of_nat (List.length l)
  | _, _ => 0
  end.

(** The score of a row: the product, from left to right, of the similarities. *)
Definition product (xs : list double) : double :=
  match xs with [] => d1 | x :: xs' => fold_left dmul xs' x end.
Definition scored (inp : input) (t : table) (ss : list strategy) (i : Z) (x : double) : Prop :=
  exists xs, Forall2 (fun s y => exists a b, feature inp s a /\ cell t s i b /\ y = percent (percentage s a b)) ss xs /\
    x = product xs.

(** Rows resembling the image by half of each complex feature. *)
Definition plausible (inp : input) (t : table) (i : Z) : Prop :=
  forall s a b, In s complex_strategies -> feature inp s a -> cell t s i b -> 50 <= percentage s a b.

(** Rows whose word is on no other row, or on another row whose zones and zone
    proportions resemble those of the image by half. *)
Definition alike (inp : input) (t : table) (j : Z) : Prop :=
  (forall a b, feature inp (mkst Zone false) a -> cell t (mkst Zone false) j b ->
     50 <= percentage (mkst Zone false) a b) /\
  (forall a b, feature inp (mkst ProportionalityZone false) (VVec a) ->
     cell t (mkst ProportionalityZone false) j (VVec b) ->
     exists v, pz_compute b a = Ok v /\ 50 <= v).
Definition supported (inp : input) (t : table) (i : Z) : Prop :=
  (forall j, ~ same_word (t_glyphs t) i j) \/ exists j, same_word (t_glyphs t) i j /\ alike inp t j.

(** A ranking of the rows [kept]: one row by class, of the best score of its
    class, in decreasing order of score; the rows whose score is at least half the
    best score. *)
Definition class (t : table) (i : Z) : Z := nth (Z.to_nat i) (t_ids t) 0.
Record ranking (t : table) (kept : Z -> Prop) (score : Z -> double -> Prop) (ranked : list prob) : Prop := {
  rk_kept : forall p, In p ranked -> kept (pr_i p) /\ score (pr_i p) (pr_p p) /\ unit_double (pr_p p);
  rk_sorted : StronglySorted (fun p q => dle (pr_p q) (pr_p p) = true) ranked;
  rk_classes : NoDup (map (fun p => class t (pr_i p)) ranked);
  rk_class_best : forall p i x, In p ranked -> kept i -> score i x -> class t i = class t (pr_i p) ->
     dle x (pr_p p) = true;
  rk_best : forall p ranked' i x, ranked = p :: ranked' -> kept i -> score i x -> dle x (pr_p p) = true;
  rk_half : forall p ranked' q, ranked = p :: ranked' -> In q ranked -> at_most 2 (pr_p p) (pr_p q);
  rk_complete : forall p ranked' i x, ranked = p :: ranked' -> kept i -> score i x ->
     dle (dmul (pr_p p) dhalf) x = true -> exists q, In q ranked /\ class t (pr_i q) = class t i;
  rk_nonempty : ranked = [] -> forall i, ~ kept i }.
(** The labels of the rows of a ranking. *)
Definition labels_of (t : table) (ranked : list prob) : list oview :=
  flat_map (fun p => nth (Z.to_nat (pr_i p)) (t_glyphs t) []) ranked.

(** Rows with the greatest score. *)
Definition certain (inp : input) (t : table) (i : Z) : Prop :=
  candidate inp t i /\ scored inp t simple_strategies i d1.
(** Rows that pass all the selections. *)
Definition retained (inp : input) (t : table) (i : Z) : Prop :=
  candidate inp t i /\ plausible inp t i /\ supported inp t i.
Definition scoring : list strategy := simple_strategies ++ complex_strategies.

(** The result: a ranking of the rows of score 1 if there are some, otherwise of
    the rows retained. *)
Definition outcome (inp : input) (t : table) (labels : list oview) : Prop :=
  exists ranked, labels = labels_of t ranked /\
    (((exists i, certain inp t i) /\ ranking t (certain inp t) (scored inp t simple_strategies) ranked) \/
     ((forall i, ~ certain inp t i) /\ ranking t (retained inp t) (scored inp t scoring) ranked)).

(** The comparisons of zone proportions never divide by zero. *)
Definition comparable (inp : input) (t : table) : Prop :=
  forall j a b, feature inp (mkst ProportionalityZone false) (VVec a) ->
    cell t (mkst ProportionalityZone false) j (VVec b) ->
    (forall y, In y b -> 0 <= y <= 100) /\ forall x y, In (x, y) (combine b a) -> 0 < x + y.

(** Exactly when a division by zero happens: there is no row of score 1, and for a row that
    passes the selections before, the rows of the same word are compared in order until one
    is alike, and for one of them the zone proportions have zeros at the same place. *)
Definition common_zero (b a : list Z) : Prop :=
  List.length b = List.length a /\ exists x y, In (x, y) (combine b a) /\ (x + y) mod 4294967296 = 0.
Definition divided (inp : input) (t : table) (j : Z) : Prop :=
  (forall a b, feature inp (mkst Zone false) a -> cell t (mkst Zone false) j b -> 50 <= percentage (mkst Zone false) a b) /\
  (forall a b, feature inp (mkst ProportionalityZone false) (VVec a) -> cell t (mkst ProportionalityZone false) j (VVec b) -> common_zero b a).
Definition divides (inp : input) (t : table) (i : Z) : Prop :=
  exists before j after, scan_order (t_glyphs t) i = before ++ j :: after /\ (forall k, In k before -> ~ alike inp t k) /\ divided inp t j.
Definition undefined (inp : input) (t : table) : Prop :=
  (forall i, ~ certain inp t i) /\ exists i, candidate inp t i /\ plausible inp t i /\ divides inp t i.

(** The simple features of the image are those of row i. *)
Definition known (inp : input) (t : table) (i : Z) : Prop :=
  0 <= i < rows t /\ forall s, In s simple_strategies -> exists v, feature inp s v /\ cell t s i v.
