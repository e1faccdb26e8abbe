(** What the loop over the characters must give. *)
From Verif Require Import Base SortModel ImageModel ImageSpec BoxModel BoxSpec StratModel DatasModel TrieModel IndexModel FloatModel RecogModel
  RecogSpec ExtractModel FilterSpec.

(** The list of candidates of an image, whatever the contexts and the contents of
    the buffers: recognising it afresh. *)
Definition recognised (e : recogniser) (img : image) (l : list oview) : Prop :=
  forall junk cx, exists img90 cx', rotate90 img = Ok img90 /\
    compute_image (r_sortv e) (r_sortp e) simple_strategies complex_strategies exclusive_strategies
      (r_table e) (mkin junk (r_zsort e) img img90) dhalf cx = Ok (l, cx').

(** Legal sorts and a table built by the program. *)
Definition sound_recogniser (e : recogniser) : Prop :=
  sound_table (r_table e) /\ is_std_sort (lt_by_views (t_ids (r_table e))) (r_sortv e (t_ids (r_table e))) /\
  is_std_sort gt_prob (r_sortp e) /\ is_std_sort Z.ltb (r_zsort e).

(** The picture in a box. *)
Definition char_image (img : image) (b : box) (im : image) : Prop :=
  wf_image im /\ iw im = bw b /\ ih im = bh b /\
  forall i j, 0 <= i < bw b -> 0 <= j < bh b -> pix im i j = pix img (bx b + i) (by_ b + j).

(** The breaks: the characters more than 4 columns after the end of the one
    before, the first one being compared with column 0. *)
Fixpoint breaks (x n : Z) (boxes : list box) : list Z :=
  match boxes with
  | [] => []
  | b :: boxes' => (if x + 4 <? bx b then [n] else []) ++ breaks (bx b + bw b) (n + 1) boxes'
  end.

(** A reference to the candidates of the picture in a box, recognised afresh. *)
Definition has_list (e : recogniser) (img : image) (st : list (list oview)) (b : box) (r : Z) : Prop :=
  0 <= r < vsize st /\ exists im, char_image img b im /\ recognised e im (list_at st r).
(** The recognition of the picture in a box does not divide by zero. *)
Definition can_read (e : recogniser) (img : image) (b : box) : Prop :=
  forall im, char_image img b im -> recognisable im /\ exists l, recognised e im l.
Definition small_character (img : image) (b : box) : Prop := forall im, char_image img b im -> recognisable im.

(** Characters share a list when they have the same picture. *)
Definition shared (img : image) (boxes : list box) (amb : list Z) : Prop :=
  forall b r b' r' im im', In (b, r) (combine boxes amb) -> In (b', r') (combine boxes amb) ->
    char_image img b im -> char_image img b' im' -> (r = r' <-> im = im').
