(** Model of ocr2/compute_image.hpp, reduce_universe.hpp, probabilities.hpp,
    sort_probabilities.hpp and insert_views.hpp. *)
From Verif Require Import Base SortModel ImageModel StratModel ZoneModel DatasModel IndexModel FloatModel.
From Coq Require Import SpecFloat.

(** The relationship_type of the features (strategies/*.hpp). *)
Inductive relation := RInterval (n : Z) | REqual | RAlts | RZones | RPz.
Definition relation_of (a : algo) : relation :=
  match a with
  | Dvgravity2 | Dvdirection2 | Dzdensity | Hdirection2 | Hgravity2 | Proportionality | Density => RInterval 100
  | Hdirection | Hgravity | Dvdirection | Dvgravity => RInterval 200
  | Hbar => REqual
  | Alternations => RAlts
  | Zone => RZones
  | ProportionalityZone => RPz
  end.

(** relationship/*.hpp: count(); proportionality_zone.cpp 78-79. *)
Definition rel_count (r : relation) : Z :=
  match r with RInterval n => n + 1 | REqual => 2 | RAlts | RZones | RPz => 101 end.

(** static_cast<double>(c) / 100. *)
Definition percent (c : Z) : double := ddiv (double_of c) d100.

(** relationship/*.hpp and proportionality_zone.cpp 82-87: dist.  The last case
    is excluded by the types. *)
Definition rel_dist (r : relation) (a b : fval) : res double :=
  match r, a, b with
  | RInterval n, VNum x, VNum y => c <- interval_compute n x y ;; Ok (percent c)
  | REqual, VNum x, VNum y => Ok (if x =? y then d1 else d0)
  | RAlts, VAlts x, VAlts y => c <- array_compute alt_eqb x y ;; Ok (percent c)
  | RZones, VArr x, VArr y => c <- array_compute Z.eqb x y ;; Ok (percent c)
  | RPz, VVec x, VVec y => c <- pz_compute x y ;; Ok (percent c)
  | _, _, _ => UB
  end.
(** relationship/*.hpp and proportionality_zone.cpp 89-95: in_dist. *)
Definition rel_in_dist (r : relation) (a b : fval) (d : Z) : res bool :=
  match r, a, b with
  | RInterval _, VNum x, VNum y => Ok (interval_in_dist x y d)
  | REqual, VNum x, VNum y => Ok (equal_in_dist x y d)
  | RAlts, VAlts x, VAlts y => array_in_dist alt_eqb x y d
  | RZones, VArr x, VArr y => array_in_dist Z.eqb x y d
  | RPz, VVec x, VVec y => pz_in_dist x y d
  | _, _, _ => UB
  end.

Definition algo_code (a : algo) : Z :=
  match a with
  | Dvgravity2 => 0 | Dvdirection2 => 1 | Dzdensity => 2 | Hdirection => 3 | Hdirection2 => 4
  | Hgravity => 5 | Hgravity2 => 6 | Proportionality => 7 | Dvdirection => 8 | Dvgravity => 9
  | Density => 10 | Hbar => 11 | Alternations => 12 | Zone => 13 | ProportionalityZone => 14
  end.
Definition strategy_eqb (s t : strategy) : bool :=
  (algo_code (st_algo s) =? algo_code (st_algo t)) && Bool.eqb (st_rot s) (st_rot t).

(** datas_loader.hpp 197-205: get<Strategy>, the column of a strategy. *)
Fixpoint get_col (ss : list strategy) (cols : list (list fval)) (s : strategy) : res (list fval) :=
  match ss, cols with
  | t :: ss', c :: cols' => if strategy_eqb s t then Ok c else get_col ss' cols' s
  | _, _ => UB
  end.
Definition rel (s : strategy) : relation := relation_of (st_algo s).

(** probabilities.hpp 27-31. *)
Record prob := mkpr { pr_i : Z; pr_p : double }.

(** data_indexes_ordered.hpp 33-40: the column of an interval feature. *)
Definition nums_of (c : list fval) : list Z :=
  map (fun v => match v with VNum n => n | _ => 0 end) c.

(** compute_image.hpp 91-103: initialize_universe; [cap] is the size of the
    buffer (probabilities.hpp 38-42, 63).  The probabilities are not set. *)
Definition initialize_universe (cap : Z) (r : relation) (col : list fval) (indexes : list Z) (value : Z)
    : res (list prob) :=
  is <- get_range (nums_of col) indexes value ((rel_count r - 1) / 10) ;;
  fold_left (fun acc i => ps <- acc ;; emit cap ps (mkpr i S754_nan)) is (Ok []).

(** reduce_universe.hpp 39-52 and datas_loader.hpp 156-159. *)
Fixpoint reduce_with_distance (r : relation) (col : list fval) (value : fval) (d : Z) (ps : list prob)
    : res (list prob) :=
  match ps with
  | [] => Ok []
  | p :: ps' =>
    v <- col_at col (pr_i p) ;;
    out <- rel_in_dist r v value d ;;
    l <- reduce_with_distance r col value d ps' ;;
    Ok (if out : bool then l else p :: l)
  end.

(** compute_image.hpp 105-110: initialize_probability. *)
Fixpoint initialize_probability (r : relation) (col : list fval) (value : fval) (ps : list prob) : res (list prob) :=
  match ps with
  | [] => Ok []
  | p :: ps' =>
    v <- col_at col (pr_i p) ;;
    x <- rel_dist r v value ;;
    l <- initialize_probability r col value ps' ;;
    Ok (mkpr (pr_i p) x :: l)
  end.
(** compute_image.hpp 112-117: update_probability. *)
Fixpoint update_probability (r : relation) (col : list fval) (value : fval) (ps : list prob) : res (list prob) :=
  match ps with
  | [] => Ok []
  | p :: ps' =>
    v <- col_at col (pr_i p) ;;
    x <- rel_dist r v value ;;
    l <- update_probability r col value ps' ;;
    Ok (mkpr (pr_i p) (dmul (pr_p p) x) :: l)
  end.

(** reduce_universe.hpp 54-70 and datas_loader.hpp 150-154. *)
Fixpoint reduce_and_update (r : relation) (col : list fval) (value : fval) (limit : double) (ps : list prob)
    : res (list prob) :=
  match ps with
  | [] => Ok []
  | p :: ps' =>
    v <- col_at col (pr_i p) ;;
    x <- rel_dist r value v ;;
    l <- reduce_and_update r col value limit ps' ;;
    Ok (if dle limit x then mkpr (pr_i p) (dmul (pr_p p) x) :: l else l)
  end.

(** reduce_universe.hpp 84-92: one of the indexes satisfies the predicate. *)
Fixpoint some_of (pred : Z -> res bool) (l : list Z) : res bool :=
  match l with
  | [] => Ok false
  | i :: l' => b <- pred i ;; if b : bool then Ok true else some_of pred l'
  end.
(** reduce_universe.hpp 72-95. *)
Fixpoint reduce_by_word (by_words : list (list Z)) (pred : Z -> res bool) (ps : list prob) : res (list prob) :=
  match ps with
  | [] => Ok []
  | p :: ps' =>
    same <- rd by_words (pr_i p) ;;
    keep <- match same with [] => Ok true | _ :: _ => some_of pred same end ;;
    l <- reduce_by_word by_words pred ps' ;;
    Ok (if keep : bool then p :: l else l)
  end.

(** The images, the std::sort of proportionality_zone.cpp and the content of
    fresh memory. *)
Record input := mkin { in_junk : Z -> Z; in_zsort : list Z -> list Z; in_img : image; in_img90 : image }.
Definition load (inp : input) (s : strategy) (cx : ctxs) : res (fval * ctxs) :=
  strategy_load (in_junk inp) (in_zsort inp) s (in_img inp) (in_img90 inp) cx.

(** compute_image.hpp 52-65: value_for_strategies. *)
Fixpoint load_values (inp : input) (ss : list strategy) (cx : ctxs) : res (list fval * ctxs) :=
  match ss with
  | [] => Ok ([], cx)
  | s :: ss' =>
    '(v, cx1) <- load inp s cx ;;
    '(vs, cx2) <- load_values inp ss' cx1 ;;
    Ok (v :: vs, cx2)
  end.

(** The table: the strategies of Datas, the columns, the first column's index,
    the same-word lists, the glyphs and their classes. *)
Record table := mktable {
  t_strategies : list strategy;
  t_cols : list (list fval);
  t_first : list Z;
  t_by_words : list (list Z);
  t_glyphs : list (list oview);
  t_ids : list Z }.
(** probabilities.hpp 38-42, main/ocr2_extract_text.cpp 96-97. *)
Definition t_cap (t : table) : Z := Z.of_nat (List.length (t_glyphs t)).

(** compute_image.hpp 149-154. *)
Fixpoint reduce_all (t : table) (ss : list strategy) (vs : list fval) (ps : list prob) : res (list prob) :=
  match ss, vs with
  | s :: ss', v :: vs' =>
    col <- get_col (t_strategies t) (t_cols t) s ;;
    ps' <- reduce_with_distance (rel s) col v ((rel_count (rel s) - 1) / 10) ps ;;
    reduce_all t ss' vs' ps'
  | _, _ => Ok ps
  end.
(** compute_image.hpp 162-166. *)
Fixpoint update_all (t : table) (ss : list strategy) (vs : list fval) (ps : list prob) : res (list prob) :=
  match ss, vs with
  | s :: ss', v :: vs' =>
    col <- get_col (t_strategies t) (t_cols t) s ;;
    ps' <- update_probability (rel s) col v ps ;;
    update_all t ss' vs' ps'
  | _, _ => Ok ps
  end.

(** compute_image.hpp 127-167: compute_simple_universe. *)
Definition compute_simple_universe (inp : input) (t : table) (simple : list strategy) (cx : ctxs)
    : res (list prob * ctxs) :=
  match simple with
  | [] => UB  (* excluded by the types *)
  | first :: ss =>
    '(v1, cx1) <- load inp first cx ;;
    col <- get_col (t_strategies t) (t_cols t) first ;;
    ps <- initialize_universe (t_cap t) (rel first) col (t_first t)
            (match v1 with VNum n => n | _ => 0 end) ;;
    '(vs, cx2) <- load_values inp ss cx1 ;;
    ps <- reduce_all t ss vs ps ;;
    ps <- initialize_probability (rel first) col v1 ps ;;
    ps <- update_all t ss vs ps ;;
    Ok (ps, cx2)
  end.

(** compute_image.hpp 35-50: reduce_complexe_universe. *)
Fixpoint reduce_complex (inp : input) (t : table) (ss : list strategy) (ps : list prob) (cx : ctxs)
    : res (list prob * ctxs) :=
  match ss with
  | [] => Ok (ps, cx)
  | s :: ss' =>
    col <- get_col (t_strategies t) (t_cols t) s ;;
    '(v, cx') <- load inp s cx ;;
    ps' <- reduce_and_update (rel s) col v dhalf ps ;;
    reduce_complex inp t ss' ps' cx'
  end.

(** compute_image.hpp 81-87: the predicate of the exclusive features. *)
Fixpoint all_in_dist (t : table) (ss : list strategy) (vs : list fval) (i : Z) : res bool :=
  match ss, vs with
  | s :: ss', v :: vs' =>
    col <- get_col (t_strategies t) (t_cols t) s ;;
    x <- col_at col i ;;
    b <- rel_in_dist (rel s) x v (rel_count (rel s) / 2) ;;
    if b : bool then all_in_dist t ss' vs' i else Ok false
  | _, _ => Ok true
  end.
(** compute_image.hpp 67-88: reduce_exclusive_universe. *)
Definition reduce_exclusive (inp : input) (t : table) (ss : list strategy) (ps : list prob) (cx : ctxs)
    : res (list prob * ctxs) :=
  match ps with
  | [] => Ok (ps, cx)
  | _ :: _ =>
    '(vs, cx') <- load_values inp ss cx ;;
    ps' <- reduce_by_word (t_by_words t) (all_in_dist t ss vs) ps ;;
    Ok (ps', cx')
  end.

(** sort_probabilities.hpp 29-44; the indexes are checked by [ids_ok]. *)
Definition id_at (ids : list Z) (p : prob) : Z := nth (Z.to_nat (pr_i p)) ids 0.
Definition eq_by_views (ids : list Z) (a b : prob) : bool := id_at ids a =? id_at ids b.
Definition lt_by_views (ids : list Z) (a b : prob) : bool :=
  if id_at ids a =? id_at ids b then dlt (pr_p b) (pr_p a) else id_at ids a <? id_at ids b.
(** probabilities.hpp 84-89: GtProb. *)
Definition gt_prob (a b : prob) : bool := dlt (pr_p b) (pr_p a).
Definition ids_ok (ids : list Z) (ps : list prob) : bool :=
  forallb (fun p => (0 <=? pr_i p) && (pr_i p <? Z.of_nat (List.length ids))) ps.

(** sort_probabilities.hpp 67-69. *)
Definition sort_by_views (sortv : list Z -> list prob -> list prob) (ids : list Z) (ps : list prob)
    : res (list prob) :=
  if ids_ok ids ps then Ok (sortv ids ps) else UB.
(** sort_probabilities.hpp 46-65: std::unique and std::unique_copy keep the first
    of the elements equal to their predecessor. *)
Fixpoint unique_from (ids : list Z) (p : prob) (ps : list prob) : list prob :=
  match ps with
  | [] => []
  | q :: ps' => if eq_by_views ids p q then unique_from ids p ps' else q :: unique_from ids q ps'
  end.
Definition unique_by_views (ids : list Z) (ps : list prob) : res (list prob) :=
  if ids_ok ids ps then Ok (match ps with [] => [] | p :: ps' => p :: unique_from ids p ps' end) else UB.

(** insert_views.hpp 28-41. *)
Fixpoint insert_views (glyphs : list (list oview)) (limit : double) (ps : list prob) : res (list oview) :=
  match ps with
  | [] => Ok []
  | p :: ps' =>
    if dle limit (pr_p p) then
      views <- rd glyphs (pr_i p) ;;
      l <- insert_views glyphs limit ps' ;;
      Ok (views ++ l)
    else Ok []
  end.

(** compute_image.hpp 178-228: the result and the context.  [sortv] and [sortp]
    are std::sort with LtProbByViews and GtProb; the temporary buffer has the
    size of the first one and receives at most as many elements. *)
Definition compute_image (sortv : list Z -> list prob -> list prob) (sortp : list prob -> list prob)
    (simple complex exclusive : list strategy) (t : table) (inp : input) (limit : double) (cx : ctxs)
    : res (list oview * ctxs) :=
  '(ps, cx1) <- compute_simple_universe inp t simple (ctx_reset cx) ;;
  ps <- sort_by_views sortv (t_ids t) ps ;;
  let finish (ps : list prob) (cx : ctxs) :=
    ps <- unique_by_views (t_ids t) ps ;;
    let ps := sortp ps in
    match ps with
    | [] => Ok ([], cx)
    | p :: _ =>
      l <- insert_views (t_glyphs t) (dmul (pr_p p) limit) ps ;;
      Ok (l, cx)
    end in
  match complex ++ exclusive with
  | [] => finish ps cx1
  | _ :: _ =>
    tmp <- unique_by_views (t_ids t) ps ;;
    let tmp := sortp tmp in
    match tmp with
    | [] => Ok ([], cx1)
    | p :: _ =>
      if dle d1 (pr_p p) then
        l <- insert_views (t_glyphs t) d1 tmp ;;
        Ok (l, cx1)
      else
        '(ps, cx2) <- reduce_complex inp t complex ps cx1 ;;
        '(ps, cx3) <- reduce_exclusive inp t exclusive ps cx2 ;;
        ps <- sort_by_views sortv (t_ids t) ps ;;
        finish ps cx3
    end
  end.
