(** Property C98: sorting definitions and removing the repeated ones. *)
From Verif Require Import Base SortModel SortProofs ImageModel ImageSpec TrieSpec DefsModel DefsSpec DefsProofs.

(** C98: the definitions come out in strictly increasing order, each is one of those
    given, and each of those given has one alike. *)
Theorem C98_unique_sort : forall D (sort : list (definition D) -> list (definition D)) defs, is_std_sort def_less sort -> Forall wf_def defs ->
  exists out, unique_sort_definitions sort defs = Ok out /\ increasing_defs out /\ (forall d, In d out -> In d defs) /\
    (forall d, In d defs -> exists e, In e out /\ def_alike d e).
Proof. exact @unique_sort_ok. Qed.
Print Assumptions C98_unique_sort.

(** When definitions that are alike have the same features, the result does not
    depend on the sort. *)
Theorem C98_determined : forall D (sort sort' : list (definition D) -> list (definition D)) defs,
  is_std_sort def_less sort -> is_std_sort def_less sort' -> Forall wf_def defs ->
  (forall a b, In a defs -> In b defs -> def_alike a b -> a = b) ->
  unique_sort_definitions sort defs = unique_sort_definitions sort' defs.
Proof. exact @unique_sort_determined. Qed.
Print Assumptions C98_determined.

Definition ex_def (c font : list Z) (px : list Z) (n : Z) : definition Z := mkdef c font (mkimage 1 2 px) n.
Example C98_nonvacuous :
  unique_sort_definitions (isort def_less)
    [ex_def (str "b") (str "f") [88; 45] 1; ex_def (str "a") (str "g") [88; 45] 2; ex_def (str "b") (str "f") [88; 45] 1;
     ex_def (str "b") (str "f") [45; 88] 3; ex_def (str "a") (str "f") [88; 88] 4] =
  Ok [ex_def (str "a") (str "f") [88; 88] 4; ex_def (str "a") (str "g") [88; 45] 2; ex_def (str "b") (str "f") [45; 88] 3; ex_def (str "b") (str "f") [88; 45] 1].
Proof. vm_compute. reflexivity. Qed.
Example C98_nonvacuous_hyp : is_std_sort (@def_less Z) (isort def_less) /\ wf_def (ex_def (str "b") (str "f") [88; 45] 1).
Proof. split; [apply isort_is_sort|]. cbv. repeat split; discriminate. Qed.
(** Of two definitions alike with other features, the sort chooses. *)
Example C98_features : exists sort, is_std_sort (@def_less Z) sort /\
  unique_sort_definitions sort [ex_def [] [] [88; 45] 1; ex_def [] [] [88; 45] 2] <>
  unique_sort_definitions (isort def_less) [ex_def [] [] [88; 45] 1; ex_def [] [] [88; 45] 2].
Proof.
  exists (fun l => isort def_less (rev l)). split; [|vm_compute; discriminate].
  intros l W. assert (W' : strict_weak def_less (rev l)) by (apply (strict_weak_incl def_less l); [exact W|intros a Ha; apply in_rev; exact Ha]).
  destruct (isort_is_sort def_less (rev l) W') as [P H]. split; [|exact H].
  eapply Permutation.perm_trans; [apply Permutation.Permutation_rev|exact P].
Qed.
