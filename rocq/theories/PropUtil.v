(** Properties C54 and C55: reindexing, and the buffers of the image context. *)
From Verif Require Import Base ImageModel ImageSpec TrieModel UtilModel UtilSpec UtilProofs.

(** C54: each position has the element formerly at the given index. *)
Theorem C54_reindex : forall T (def : T) moved indexes cont, permutation_of_positions cont indexes ->
  exists r, reindex def moved indexes cont = Ok r /\ elements_at cont indexes r.
Proof. exact @reindex_elements. Qed.
Print Assumptions C54_reindex.
(** Whatever the indexes of elements, each position has the element formerly at its
    index, moved as many times as it was taken before. *)
Theorem C54_moved : forall T (def : T) moved cont indexes, (forall i, In i indexes -> 0 <= i < vsize cont) -> vsize indexes = vsize cont ->
  exists r, reindex def moved indexes cont = Ok r /\ elements_moved moved cont indexes r.
Proof. exact @reindex_any. Qed.
Print Assumptions C54_moved.
(** Repeated indexes take moved-from elements; too many write past the end. *)
Theorem C54_repeated_refuted : reindex 0 (fun _ => 7) [1; 1] [10; 11] = Ok [11; 7].
Proof. reflexivity. Qed.
Print Assumptions C54_repeated_refuted.
Theorem C54_overflow_refuted : forall T (def : T) moved indexes cont, vsize cont < vsize indexes -> (forall i, In i indexes -> 0 <= i < vsize cont) ->
  reindex def moved indexes cont = UB.
Proof. exact @reindex_overflow. Qed.
Print Assumptions C54_overflow_refuted.
Example C54_nonvacuous : permutation_of_positions [10; 11; 12] [2; 0; 1] /\ reindex 0 (fun _ => 7) [2; 0; 1] [10; 11; 12] = Ok [12; 10; 11].
Proof.
  split; [|reflexivity]. split; [|split; [reflexivity|]].
  - repeat (apply NoDup_cons; [cbn; intuition discriminate|]). apply NoDup_nil.
  - change (vsize [10; 11; 12]) with 3. cbn. lia.
Qed.

(** C55: after any history, from any context and whatever new buffers contain, the
    image is the last one given and the rotated image its quarter turn. *)
Theorem C55_context : forall junk h n c img turn, Forall (fun p => fits_twice (fst p)) (h ++ [(img, turn)]) ->
  exists c', ctx_run junk n c (h ++ [(img, turn)]) = Ok c' /\ ctx_view c' = img /\ (turn = true -> quarter_turn img (ctx_view90 c')).
Proof. exact ctx_history. Qed.
Print Assumptions C55_context.
(** The size of the buffer wraps for images of 2^31 pixels or more, and their
    pixels are written past it. *)
Theorem C55_large_refuted : forall junk img, wf_image img -> 2147483648 <= iw img * ih img -> ctx_img junk new_image_ctx img = UB.
Proof. exact ctx_overflow. Qed.
Print Assumptions C55_large_refuted.
Example C55_large_exists : exists img, wf_image img /\ 2147483648 <= iw img * ih img.
Proof.
  exists (mkimage 65536 32768 (repeat 45 (Z.to_nat 2147483648))). unfold wf_image. cbn [iw ih idata]. rewrite repeat_length. lia.
Qed.
Example C55_nonvacuous :
  let i1 := mkimage 2 3 (str "xx--x-") in let i2 := mkimage 1 2 (str "x-") in
  Forall (fun p => fits_twice (fst p)) [(i1, true); (i2, true)] /\
  (c <- ctx_run (fun _ k => k) 0 new_image_ctx [(i1, true); (i2, true)] ;; Ok (ctx_view c, ctx_view90 c)) = Ok (i2, mkimage 2 1 (str "x-")).
Proof.
  cbv zeta. split; [|vm_compute; reflexivity]. repeat (apply Forall_cons; [split; [repeat split; vm_compute; congruence|reflexivity]|]). apply Forall_nil.
Qed.
