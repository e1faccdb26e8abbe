(** Property C50: the loop over the characters and its cache. *)
From Verif Require Import Base SortModel SortProofs ImageModel ImageSpec BoxModel BoxSpec StratModel ZoneModel DatasModel TrieModel IndexModel FloatModel
  RecogModel RecogSpec RecogWitness ExtractModel ExtractSpec ExtractProofs FilterSpec.

(** C50: the boxes are those of the segmentation, the breaks are after 4 empty
    columns, and the candidates of each character are those that a recognition
    without cache, in any context, gives. *)
Theorem C50_cache_transparent : forall e img, sound_recogniser e -> box_searchable img ->
  forall boxes cx, segment img = Ok boxes -> Forall (small_character img) boxes ->
  forall s, read_line e img cx = Ok s ->
    l_boxes s = boxes /\ l_spaces s = breaks 0 0 boxes /\ Forall2 (has_list e img (l_store s)) boxes (l_amb s).
Proof. intros e img HE Hs boxes cx Eb HR. exact (proj2 (read_line_ok e img HE Hs boxes cx Eb HR)). Qed.
Print Assumptions C50_cache_transparent.
(** Two characters share a list of candidates if and only if they have the same picture. *)
Theorem C50_shared : forall e img, sound_recogniser e -> box_searchable img ->
  forall boxes cx s, segment img = Ok boxes -> Forall (small_character img) boxes -> read_line e img cx = Ok s -> shared img boxes (l_amb s).
Proof. exact read_line_shared. Qed.
Print Assumptions C50_shared.
(** The loop ends if the recognition of each character does. *)
Theorem C50_total : forall e img, sound_recogniser e -> box_searchable img ->
  forall boxes cx, segment img = Ok boxes -> Forall (small_character img) boxes -> Forall (can_read e img) boxes ->
  exists s, read_line e img cx = Ok s.
Proof. intros e img HE Hs boxes cx Eb HR. exact (proj1 (read_line_ok e img HE Hs boxes cx Eb HR)). Qed.
Print Assumptions C50_total.

Definition picture (rows : list (list Z)) : image :=
  mkimage (match rows with r :: _ => Z.of_nat (List.length r) | [] => 0 end) (Z.of_nat (List.length rows)) (List.concat rows).
Definition ex_c := picture [str "xxx"; str "x--"; str "xxx"].
Definition ex_i := picture [str "x"; str "-"; str "x"; str "x"].
Definition ex_table := build [ex_c; ex_i] [[mkov 0 0]; [mkov 2 0]].
Definition ex_rec := mkrec ex_table (fun ids => isort (lt_by_views ids)) (isort gt_prob) (isort Z.ltb) (fun n k => n + k).
Definition ex_line := picture
  [ str "----------x---------";
    str "-xxx-xxx---------xxx";
    str "-x---x----x------x--";
    str "-xxx-xxx--x------xxx" ].
Lemma ex_rec_sound : sound_recogniser ex_rec.
Proof. split; [apply build_sound; vm_compute; reflexivity|]. split; [|split]; apply isort_is_sort. Qed.
Definition ex_boxes := [mkbox 1 1 3 3; mkbox 5 1 3 3; mkbox 10 0 1 4; mkbox 17 1 2 3].
(** The last character lacks its last column (C11) and is not recognised. *)
Example C50_nonvacuous :
  sound_recogniser ex_rec /\ box_searchable ex_line /\ segment ex_line = Ok ex_boxes /\ Forall (small_character ex_line) ex_boxes /\
  match read_line ex_rec ex_line new_ctxs with
  | Ok s => l_spaces s = [3] /\ l_boxes s = ex_boxes /\ l_store s = [[mkov 0 0]; [mkov 2 0]; []] /\ l_amb s = [0; 0; 1; 2]
  | _ => False
  end.
Proof.
  split; [exact ex_rec_sound|]. split; [repeat split; vm_compute; congruence|]. split; [vm_compute; reflexivity|]. split.
  - unfold ex_boxes; repeat (apply Forall_cons; [intros im (Hw & Ew & Eh & _); cbn [bw bh] in *; split; [exact Hw|]; rewrite Ew, Eh; lia|]); apply Forall_nil.
  - vm_compute. repeat split; reflexivity.
Qed.
