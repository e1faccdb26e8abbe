(** The features of an image on its own, and the comparison of rows. *)
From Verif Require Import Base ImageModel StratModel ZoneModel DatasModel.

(** One feature computed from scratch, nothing being shared. *)
Definition feature_alone (sort : list Z -> list Z) (s : strategy) (img img90 : image) : res fval :=
  let i := if st_rot s then img90 else img in
  let i90 := if st_rot s then img else img90 in
  let num (v : res Z) := n <- v ;; Ok (VNum n) in
  match st_algo s with
  | Hdirection => num (hdirection i)
  | Hdirection2 => num (hdirection2 i)
  | Hgravity => num (hgravity i)
  | Hgravity2 => num (hgravity2 i)
  | Dvdirection => num (dvdirection i)
  | Dvdirection2 => num (dvdirection2 i)
  | Dvgravity => num (dvgravity i)
  | Dvgravity2 => num (dvgravity2 i)
  | Dzdensity => num (dzdensity i)
  | Proportionality => num (proportionality i)
  | Density => num (density i)
  | Hbar => num (hbar i)
  | Alternations => l <- alternations i i90 ;; Ok (VAlts l)
  | Zone => zc <- count_zone_compute (fun _ => 0) i new_zone_ctx ;; l <- zone_value i (zc_zone zc) ;; Ok (VArr l)
  | ProportionalityZone =>
      zc <- count_zone_compute (fun _ => 0) i new_zone_ctx ;; l <- pz_load sort (zc_zone zc) ;; Ok (VVec l)
  end.

(** The row of features of an image. *)
Fixpoint row_alone (sort : list Z -> list Z) (ss : list strategy) (img img90 : image) : res (list fval) :=
  match ss with
  | [] => Ok []
  | s :: ss' =>
    v <- feature_alone sort s img img90 ;;
    r <- row_alone sort ss' img img90 ;;
    Ok (v :: r)
  end.
Definition features_alone (sort : list Z -> list Z) (ss : list strategy) (img : image) : res (list fval) :=
  img90 <- rotate90 img ;; row_alone sort ss img img90.
Fixpoint rows_alone (sort : list Z -> list Z) (ss : list strategy) (imgs : list image) : res (list (list fval)) :=
  match imgs with
  | [] => Ok []
  | img :: imgs' =>
    r <- features_alone sort ss img ;;
    rs <- rows_alone sort ss imgs' ;;
    Ok (r :: rs)
  end.

(** The 25 columns, from the picture and its quarter turn. *)
Definition columns (sort : list Z -> list Z) (img img90 : image) : list (res fval) :=
  let num (v : res Z) := n <- v ;; Ok (VNum n) in
  let zone (f : zone_info -> res fval) := zc <- count_zone_compute (fun _ => 0) img new_zone_ctx ;; f (zc_zone zc) in
  [num (dvgravity2 img90); num (dvdirection2 img90); num (dzdensity img); num (dzdensity img90);
   num (dvdirection2 img); num (dvgravity2 img); num (hdirection img); num (hdirection img90);
   num (hdirection2 img); num (hdirection2 img90); num (hgravity img); num (hgravity img90);
   num (hgravity2 img); num (hgravity2 img90); num (proportionality img); num (dvdirection img);
   num (dvdirection img90); num (dvgravity img); num (dvgravity img90); num (density img);
   num (hbar img); num (hbar img90); (l <- alternations img img90 ;; Ok (VAlts l));
   zone (fun z => l <- zone_value img z ;; Ok (VArr l)); zone (fun z => l <- pz_load sort z ;; Ok (VVec l))].

(** Appending rows to a table of columns. *)
Fixpoint add_row (cols : list (list fval)) (row : list fval) : list (list fval) :=
  match cols, row with
  | c :: cols', v :: row' => (c ++ [v]) :: add_row cols' row'
  | _, _ => []
  end.
Definition add_rows (cols : list (list fval)) (rows : list (list fval)) : list (list fval) :=
  fold_left add_row rows cols.

(** Row i of a table. *)
Definition row_of (cols : list (list fval)) (i : Z) : list (option fval) :=
  map (fun c => nth_error c (Z.to_nat i)) cols.

(** Row i exists. *)
Definition has_row (cols : list (list fval)) (i : Z) : Prop :=
  0 <= i /\ forall c, In c cols -> i < Z.of_nat (List.length c).

(** The order of the values: alternations by count, then without ink first; arrays
    and vectors as words of a dictionary. *)
Definition alt_before (a b : alternation) : Prop :=
  alt_count a < alt_count b \/ (alt_count a = alt_count b /\ alt_start a = false /\ alt_start b = true).
Definition list_before {A} (before : A -> A -> Prop) (l l' : list A) : Prop :=
  (exists x t, l' = l ++ x :: t) \/
  exists c x y t t', l = c ++ x :: t /\ l' = c ++ y :: t' /\ before x y.
Definition value_before (v w : fval) : Prop :=
  match v, w with
  | VNum x, VNum y => x < y
  | VAlts x, VAlts y => list_before alt_before x y
  | VArr x, VArr y | VVec x, VVec y => list_before Z.lt x y
  | _, _ => False
  end.
(** Two values of the same feature. *)
Definition same_kind (v w : fval) : Prop :=
  match v, w with
  | VNum _, VNum _ | VAlts _, VAlts _ | VArr _, VArr _ | VVec _, VVec _ => True
  | _, _ => False
  end.

(** What lt is: no column decreases and the last one increases. *)
Definition lt_rows (a b : list (option fval)) : Prop :=
  List.length a = List.length b /\ a <> [] /\
  (forall n v w, nth_error a n = Some (Some v) -> nth_error b n = Some (Some w) ->
     (S n < List.length a)%nat -> value_before v w \/ v = w) /\
  (forall v w, nth_error a (List.length a - 1) = Some (Some v) -> nth_error b (List.length a - 1) = Some (Some w) ->
     value_before v w).
