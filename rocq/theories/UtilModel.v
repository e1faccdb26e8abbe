(** Model of utils/reindex.hpp and ocr2/image_context.hpp. *)
From Verif Require Import Base ImageModel TrieModel.

(** utils/reindex.hpp 28-38.  [def] is the value of the elements that resize
    creates, [moved] what a move leaves. *)
Section Reindex.
Context {T : Type} (def : T) (moved : T -> T).
Fixpoint reindex_loop (indexes : list Z) (cont new_cont : list T) (it : Z) : res (list T) :=
  match indexes with
  | [] => Ok new_cont
  | i :: indexes' =>
    x <- rd cont i ;;
    new_cont <- wr new_cont it x ;;
    cont <- wr cont i (moved x) ;;
    reindex_loop indexes' cont new_cont (it + 1)
  end.
Definition reindex (indexes : list Z) (cont : list T) : res (list T) :=
  reindex_loop indexes cont (repeat def (List.length cont)) 0.
End Reindex.

(** image_context.hpp 50-56: the buffer and the bounds of the image, which is at
    its beginning; the capacity is the length of the buffer. *)
Record image_ctx := mkic { ic_data : list Z; ic_w : Z; ic_h : Z }.
Definition new_image_ctx : image_ctx := mkic [] 0 0.
(** image_context.hpp 58-66: reserve; [junk] is the contents of a new buffer. *)
Definition reserve (junk : Z -> Z) (c : image_ctx) (w h : Z) : image_ctx :=
  let new_sz := u32 (u32 (w * h) * 2) in
  mkic (if vsize (ic_data c) <? new_sz then map junk (zrange new_sz) else ic_data c) w h.
(** Writing consecutive cells from [pos]. *)
Definition put_cells (buf : list Z) (pos : Z) (l : list Z) : res (list Z) :=
  if pos + vsize l <=? vsize buf then Ok (firstn (Z.to_nat pos) buf ++ l ++ skipn (Z.to_nat (pos + vsize l)) buf) else UB.
(** image_context.hpp 28-33: img, where the maker writes the pixels of [img]. *)
Definition ctx_img (junk : Z -> Z) (c : image_ctx) (img : image) : res image_ctx :=
  let c := reserve junk c (iw img) (ih img) in
  data <- put_cells (ic_data c) 0 (idata img) ;;
  Ok (mkic data (ic_w c) (ic_h c)).
(** The image given by img. *)
Definition ctx_view (c : image_ctx) : image := mkimage (ic_w c) (ic_h c) (firstn (Z.to_nat (u32 (ic_w c * ic_h c))) (ic_data c)).
(** image_context.hpp 35-43: img90, and the rotated image. *)
Definition ctx_img90 (c : image_ctx) : res image_ctx :=
  r <- rotate90 (ctx_view c) ;;
  data <- put_cells (ic_data c) (u32 (ic_w c * ic_h c)) (idata r) ;;
  Ok (mkic data (ic_w c) (ic_h c)).
Definition ctx_view90 (c : image_ctx) : image :=
  mkimage (ic_h c) (ic_w c) (firstn (Z.to_nat (u32 (ic_w c * ic_h c))) (skipn (Z.to_nat (u32 (ic_w c * ic_h c))) (ic_data c))).
(** A history: images, with or without a call of img90 after. *)
Fixpoint ctx_run (junk : Z -> Z -> Z) (n : Z) (c : image_ctx) (h : list (image * bool)) : res image_ctx :=
  match h with
  | [] => Ok c
  | (img, turn) :: h' =>
    c <- ctx_img (junk n) c img ;;
    c <- (if turn : bool then ctx_img90 c else Ok c) ;;
    ctx_run junk (n + 1) c h'
  end.
