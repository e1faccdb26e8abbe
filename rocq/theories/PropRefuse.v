(** Property C66: the dictionary files accepted. *)
From Verif Require Import Base StreamModel DictIoModel RefuseSpec RefuseProofs.

(** C66: exactly the files made of complete records and possibly an unfinished one
    are accepted, and the nodes are those of the records. *)
Theorem C66_accepted_files : forall bytes ns, load_file read_dict bytes = Ok ns <->
  exists ts tail, Forall2 record_text ns ts /\ bytes = List.concat ts ++ tail /\ unfinished tail.
Proof. exact accepted_iff. Qed.
Print Assumptions C66_accepted_files.

(** A good file, a bad separator at each place, a number too large, a flag that is
    not one; a negative number is accepted. *)
Definition answer (bytes : list Z) : option (list fnode) := match load_file read_dict bytes with Ok ns => Some ns | _ => None end.
Example C66_nonvacuous :
  answer (str "97 2 1 0" ++ [10] ++ str "98 1") = Some [mkfn 97 2 1 false] /\
  answer (str "97-2 1 0" ++ [10]) = None /\ answer (str "97 2:1 0" ++ [10]) = None /\ answer (str "97 2 1/0" ++ [10]) = None /\
  answer (str "97 2 1 0 ") = None /\ answer (str "97 2 1 2" ++ [10]) = None /\ answer (str "4294967296 2 1 0" ++ [10]) = None /\
  answer (str "-1 2 1 0" ++ [10]) = Some [mkfn 4294967295 2 1 false] /\ answer (str "4294967296") = Some [] /\ answer (str "x") = None.
Proof. repeat split; vm_compute; reflexivity. Qed.
