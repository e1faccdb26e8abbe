(** What the filter by lines (ocr2/filter_by_lines.cpp) must compute. *)
From Verif Require Import Base BoxModel IndexModel GlyphsModel FilterModel FilterSpec.

(** The candidates at the beginning of a list whose word is [w], and the others. *)
Fixpoint lead (w : Z) (l : list oview) : list oview :=
  match l with v :: l' => if ov_word v =? w then v :: lead w l' else [] | [] => [] end.
Fixpoint after (w : Z) (l : list oview) : list oview :=
  match l with v :: l' => if ov_word v =? w then after w l' else l | [] => [] end.
(** The list that is kept, and the number given for it.  A list with one word is kept.
    When the first word does not contradict the line, the second one is kept too. *)
Definition sieve (c : Z -> bool) (l : list oview) : list oview * Z :=
  match first_word l, second_word l with
  | Some w1, Some w2 =>
    if c w1 then (coherent c l, kept_groups c None l)
    else let rest := after w2 (after w1 l) in (lead w1 l ++ lead w2 (after w1 l) ++ coherent c rest, 1 + kept_groups c None rest)
  | _, _ => (l, 0)
  end.

(** The most common number, the least one if there are several. *)
Definition most_common (l : list Z) (y : Z) : Prop :=
  In y l /\ forall y', In y' l -> (count_occ Z.eq_dec l y' < count_occ Z.eq_dec l y)%nat \/
    (count_occ Z.eq_dec l y' = count_occ Z.eq_dec l y /\ y <= y').

(** Whether a side of a character at [y] contradicts the position of its word: above the
    line (1), at the line (2), below the line (4). *)
Definition off_line (flags y line : Z) : bool :=
  match flags with
  | 1 => line - 1 <=? y
  | 2 => 1 <? Z.abs (line - y)
  | 3 => line <=? y
  | 4 => y <=? line + 1
  | 6 => y <=? line
  | _ => false
  end.
Section Lines.
Context (get : Z -> option word_infos).
Definition contradicted (field : word_lines -> Z) (y line : Z) (w : Z) : bool :=
  match get w with Some wi => off_line (field (wi_lines wi)) y line | None => false end.
(** Words that go from the base line to the mean line. *)
Definition between (l : list oview) : bool :=
  match l with v :: _ => match get (ov_word v) with Some wi => (wl_base (wi_lines wi) =? 2) && (wl_mean (wi_lines wi) =? 2) | None => false end | [] => false end.
(** The lists after the base line, and the tops of the characters that tell the mean
    line; a list that several characters share is reduced several times. *)
Fixpoint by_base (base : Z) (st : list (list oview)) (amb : list Z) (boxes : list box) : list (list oview) * list Z :=
  match amb, boxes with
  | r :: amb', b :: boxes' =>
    let '(l, n) := sieve (contradicted wl_base (box_bottom b) base) (list_at st r) in
    let '(st', tops) := by_base base (upd st (Z.to_nat r) l) amb' boxes' in
    (st', if (n =? 1) && between l then box_top b :: tops else tops)
  | _, _ => (st, [])
  end.
Fixpoint by_mean (mean : Z) (st : list (list oview)) (amb : list Z) (boxes : list box) : list (list oview) :=
  match amb, boxes with
  | r :: amb', b :: boxes' => by_mean mean (upd st (Z.to_nat r) (fst (sieve (contradicted wl_mean (box_top b) mean) (list_at st r)))) amb' boxes'
  | _, _ => st
  end.
(** The base line is the most common bottom; the mean line is the most common of those
    tops, if there are any. *)
Definition lines_filtered (st : list (list oview)) (amb : list Z) (boxes : list box) (st' : list (list oview)) : Prop :=
  exists base, most_common (map box_bottom boxes) base /\
    let '(st1, tops) := by_base base st amb boxes in
    match tops with [] => st' = st1 | _ :: _ => exists mean, most_common tops mean /\ st' = by_mean mean st1 amb boxes end.
End Lines.

(** * The outcome for any boxes
    The histograms of the two lines share a buffer that has room for the sides of the
    boxes other than the first. *)
Definition min_top (b : box) (boxes : list box) : Z := fold_right Z.min (box_top b) (map box_top boxes).
Definition max_top (boxes : list box) : Z := fold_right Z.max 0 (map box_top boxes).
Definition max_bottom (boxes : list box) : Z := fold_right Z.max 0 (map box_bottom boxes).
Definition room (b : box) (boxes : list box) : Z :=
  Z.max (max_bottom boxes - least_bottom b boxes) (max_top boxes - min_top b boxes) + 1.
(** The bottom of a first box lower than the others is not counted, but what was written
    for it stays in the buffer and is counted as a top. *)
Definition base_found (b : box) (boxes : list box) (base : Z) : Prop :=
  most_common (filter (fun y => y <=? max_bottom boxes) (map box_bottom (b :: boxes))) base.
Definition leftover (b : box) (boxes : list box) : list Z :=
  let i := box_bottom b - least_bottom b boxes in
  if (max_bottom boxes <? box_bottom b) && (i <=? max_top boxes - min_top b boxes) then [min_top b boxes + i] else [].
Definition mean_found (b : box) (boxes : list box) (tops : list Z) (mean : Z) : Prop :=
  match filter (fun y => y <=? max_top boxes) tops ++ leftover b boxes with
  | [] => mean = min_top b boxes
  | l => most_common l mean
  end.
Section Outcome.
Context (get : Z -> option word_infos).
(** A side without room in the buffer is written outside of it.  The buffer for one box is
    of no element or of about 2^32. *)
Definition lines_outcome (st : list (list oview)) (amb : list Z) (all : list box) (m : res (list (list oview))) : Prop :=
  match all with
  | [] => m = Ok st
  | [b] =>
    if (box_top b =? 1) && (box_bottom b =? 1) then m = UB
    else let '(st1, tops) := by_base get (box_bottom b) st amb all in
      m = Ok (match tops with [] => st1 | _ => by_mean get (box_top b) st1 amb all end)
  | b :: boxes =>
    if room b boxes <=? box_bottom b - least_bottom b boxes then m = UB
    else exists base, base_found b boxes base /\
      let '(st1, tops) := by_base get base st amb all in
      if existsb (fun y => room b boxes <=? y - min_top b boxes) tops then m = UB
      else match tops with
        | [] => m = Ok st1
        | _ => exists mean, mean_found b boxes tops mean /\ m = Ok (by_mean get mean st1 amb all)
        end
  end.
End Outcome.
