(** What the filters of candidates must do. *)
From Verif Require Import Base BoxModel TrieModel IndexModel GlyphsModel FilterModel.

Definition valid (st : list (list oview)) (amb : list Z) : Prop := forall r, In r amb -> 0 <= r < vsize st.
Definition list_at (st : list (list oview)) (r : Z) : list oview := nth (Z.to_nat r) st [].

(** The number of positions whose list is one candidate of font f. *)
Fixpoint singles (st : list (list oview)) (amb : list Z) (f : Z) : Z :=
  match amb with
  | [] => 0
  | r :: amb' =>
    (match list_at st r with [v] => if ov_font v =? f then 1 else 0 | _ => 0 end) + singles st amb' f
  end.
(** A most frequent font. *)
Definition elected (st : list (list oview)) (amb : list Z) (f : Z) : Prop :=
  0 < singles st amb f /\ forall g, singles st amb g <= singles st amb f.
(** It is used if it is the only font or if half of the characters have it. *)
Definition decisive (st : list (list oview)) (amb : list Z) (f : Z) : Prop :=
  (forall g, 0 < singles st amb g -> g = f) \/ vsize amb / 2 <= singles st amb f.

(** The choice in a list of several candidates. *)
Definition chosen (f : Z) (l l' : list oview) : Prop :=
  match l with
  | a :: b :: t =>
    exists x, l' = [x] /\ In x l /\
      ((exists v, In v l /\ ov_font v = f) -> ov_font x = f) /\ ((forall v, In v l -> ov_font v <> f) -> x = a)
  | _ => l' = l
  end.

(** Candidates whose word does not contradict the line. *)
Definition coherent (c : Z -> bool) (l : list oview) : list oview := filter (fun v => negb (c (ov_word v))) l.
(** The first word other than that of the first candidate. *)
Definition first_word (l : list oview) : option Z := match l with v :: _ => Some (ov_word v) | [] => None end.
Definition second_word (l : list oview) : option Z :=
  match l with
  | v :: l' => first_word (filter (fun x => negb (ov_word x =? ov_word v)) l')
  | [] => None
  end.
(** The number of groups of candidates of the same word that do not contradict
    the line; prev is the word before. *)
Fixpoint kept_groups (c : Z -> bool) (prev : option Z) (l : list oview) : Z :=
  match l with
  | [] => 0
  | v :: l' =>
    (if c (ov_word v) then 0 else match prev with Some w => if w =? ov_word v then 0 else 1 | None => 1 end)
    + kept_groups c (Some (ov_word v)) l'
  end.

Inductive subsequence : list oview -> list oview -> Prop :=
| sub_nil : subsequence [] []
| sub_keep v a b : subsequence a b -> subsequence (v :: a) (v :: b)
| sub_drop v a b : subsequence a b -> subsequence a (v :: b).

(** Boxes whose sides are 32-bit numbers, with room for one more. *)
Definition small_box (b : box) : Prop := 0 <= box_top b < 4294967295 /\ 0 <= box_bottom b < 4294967295.
Definition least_bottom (b : box) (boxes : list box) : Z := fold_right Z.min (box_bottom b) (map box_bottom boxes).
