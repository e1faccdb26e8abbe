(** Properties C24-C25: feature tables. *)
From Verif Require Import Base ImageModel ImageSpec StratModel SortModel SortProofs ZoneModel DatasModel DatasSpec DatasProofs.

(** An empty table with arbitrary, even "loaded", contexts. *)
Definition stale : ctxs :=
  mkctxs (fun _ _ => (true, mktb 12 34)) (fun _ => (true, mkzc (mkzi 9 [5; 5; 5]) [7; 7])).
Definition empty_table : datas := mkdatas (map (fun _ => []) all_strategies) stale.
Definition img45' : image := mkimage 4 5 (str "xxxxx--x---xxxxxx---").
Definition img33' : image := mkimage 3 3 (str "xxxx-xxxx").

(** C24: whatever the state of the contexts, loading an image appends the
    features of the image alone, and fails exactly when they fail; also for a
    sequence of images. *)
Theorem C24_load_alone : forall junk sort d img,
  wf_image img -> 1 <= iw img -> 1 <= ih img -> iw img * ih img < 1073741824 ->
  List.length (d_cols d) = List.length all_strategies ->
  (d' <- datas_load junk sort all_strategies d img ;; Ok (d_cols d')) =
  (row <- features_alone sort all_strategies img ;; Ok (add_row (d_cols d) row)).
Proof. intros junk sort d img H1 H2 H3 H4 H5. exact (datas_load_alone junk sort all_strategies d img (conj H1 (conj H2 (conj H3 H4))) H5). Qed.
Print Assumptions C24_load_alone.

Theorem C24_history : forall junk sort d imgs,
  (forall img, In img imgs -> wf_image img /\ 1 <= iw img /\ 1 <= ih img /\ iw img * ih img < 1073741824) ->
  List.length (d_cols d) = List.length all_strategies ->
  (d' <- datas_load_all junk sort all_strategies d imgs ;; Ok (d_cols d')) =
  (rows <- rows_alone sort all_strategies imgs ;; Ok (add_rows (d_cols d) rows)).
Proof. intros junk sort d imgs H1 H2. exact (datas_load_all_alone junk sort all_strategies imgs d (proj2 (Forall_forall _ imgs) H1) H2). Qed.
Print Assumptions C24_history.

(** Which feature is in which column. *)
Theorem C24_columns : forall sort img img90 row,
  row_alone sort all_strategies img img90 = Ok row <-> columns sort img img90 = map Ok row.
Proof. exact row_columns. Qed.
Print Assumptions C24_columns.

Example C24_nonvacuous : wf_image img45' /\ wf_image img33' /\
  (d <- datas_load_all (fun _ => 3) (isort Z.ltb) all_strategies empty_table [img45'; img33'; img45'] ;;
   Ok (map (fun c => nth_error c 0) (d_cols d), map (fun c => nth_error c 2) (d_cols d), nth_error (d_cols d) 24)) =
  (rows <- rows_alone (isort Z.ltb) all_strategies [img45'; img33'; img45'] ;;
   match rows with r :: _ => Ok (map Some r, map Some r, Some [VVec [50; 50]; VVec []; VVec [50; 50]]) | [] => UB end).
Proof.
  split; [repeat split; vm_compute; congruence|]. split; [repeat split; vm_compute; congruence|].
  vm_compute. reflexivity.
Qed.

(** C25: equality of rows. *)
Theorem C25_eq_rows : forall d i j,
  has_row (d_cols d) i -> has_row (d_cols d) j ->
  exists b : bool, datas_eq d i j = Ok b /\ (b = true <-> row_of (d_cols d) i = row_of (d_cols d) j).
Proof. exact datas_eq_ok. Qed.
Print Assumptions C25_eq_rows.

(** What lt decides: no feature decreases and the last one increases. *)
Theorem C25_lt_rows : forall d i j,
  d_cols d <> [] -> has_row (d_cols d) i -> has_row (d_cols d) j ->
  exists b : bool, datas_lt d i j = Ok b /\ (b = true <-> lt_rows (row_of (d_cols d) i) (row_of (d_cols d) j)).
Proof. exact datas_lt_ok. Qed.
Print Assumptions C25_lt_rows.

(** The values of a feature are totally ordered. *)
Theorem C25_values : forall u v w, same_kind u v ->
  (fval_ltb u v = true <-> value_before u v) /\ (value_before u v \/ u = v \/ value_before v u) /\ ~ value_before u u /\
  (value_before u v -> value_before v w -> value_before u w).
Proof. intros u v w H. split; [apply fval_ltb_ok|now apply values_ordered]. Qed.
Print Assumptions C25_values.

(** A table with the 25 features of the library whose rows differ in the first
    and in the last feature. *)
Definition bad_table : datas :=
  mkdatas ([VNum 0; VNum 2; VNum 1] ::
           map (fun _ => [VNum 7; VNum 7; VNum 7]) (seq 0 21) ++
           [[VAlts []; VAlts []; VAlts []]; [VArr []; VArr []; VArr []]; [VVec [0]; VVec [0]; VVec [1]]])
          stale.

Theorem C25_lt_not_an_order_refuted :
  ~ strict_weak (fun i j => match datas_lt bad_table i j with Ok b => b | _ => false end) [0; 1; 2].
Proof.
  intros (_ & _ & H). specialize (H 0 1 2). cbn [In] in H.
  assert (X : (match datas_lt bad_table 0 2 with Ok b => b | _ => false end) = false) by (apply H; auto; vm_compute; reflexivity).
  vm_compute in X. discriminate.
Qed.
Print Assumptions C25_lt_not_an_order_refuted.

Example C25_nonvacuous :
  List.length (d_cols bad_table) = List.length all_strategies /\
  has_row (d_cols bad_table) 0 /\ has_row (d_cols bad_table) 2 /\
  datas_eq bad_table 0 0 = Ok true /\ datas_eq bad_table 0 1 = Ok false /\
  datas_lt bad_table 0 1 = Ok false /\ datas_lt bad_table 1 2 = Ok false /\ datas_lt bad_table 0 2 = Ok true.
Proof.
  split; [reflexivity|]. split; [|split; [|repeat split; vm_compute; reflexivity]].
  - split; [lia|]. intros c Hc. vm_compute in Hc. repeat (destruct Hc as [<-|Hc]; [cbn; lia|]). contradiction.
  - split; [lia|]. intros c Hc. vm_compute in Hc. repeat (destruct Hc as [<-|Hc]; [cbn; lia|]). contradiction.
Qed.
