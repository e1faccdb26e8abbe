(** Dictionary files: reading what was written, and truncated files. *)
From Verif Require Import Base BaseProofs StreamModel StreamProofs DictIoModel DictIoSpec.

Notation raw l := (mkis l false false false).

Lemma get_unsigned_raw old n r :
  0 <= n < 4294967296 -> stops is_digit r -> null r = false ->
  get_unsigned old (raw (print_uint n ++ r)) = (n, raw r).
Proof.
  intros Hn Hr Nr. unfold get_unsigned.
  rewrite (get_uint_print _ old [] n r false); [rewrite Nr; reflexivity|constructor|reflexivity|assumption|lia|assumption].
Qed.

Lemma get_bool_raw old b r : stops is_digit r -> null r = false ->
  get_bool old (raw (print_bool b ++ r)) = (b, raw r).
Proof.
  intros Hr Nr. pose proof (get_bool_print old [] b r false (Forall_nil _) (fun _ => eq_refl) Hr) as E.
  cbn [app] in E. rewrite Nr in E. exact E.
Qed.

Lemma read_record_written n r : storable_node n ->
  read_record (raw (write_node n ++ r)) = (Some (n, (32, 32, 32, 10)), raw r).
Proof.
  intros (Hc & Hp & Hs). unfold read_record, write_node. rewrite <- !app_assoc.
  rewrite get_unsigned_raw by (assumption || reflexivity). cbn [app]. rewrite get_char_one.
  rewrite get_unsigned_raw by (assumption || reflexivity). cbn [app]. rewrite get_char_one.
  rewrite get_unsigned_raw by (assumption || reflexivity). cbn [app]. rewrite get_char_one.
  rewrite get_bool_raw by reflexivity. rewrite get_char_one.
  destruct n; reflexivity.
Qed.

(** Once the end is reached the record is not complete. *)
Lemma get_unsigned_dead old s : dead s -> get_unsigned old s = (old, set_state false true s).
Proof. apply get_uint_dead. Qed.

Lemma dead_char s : dead s -> exists v s', get_char 0 s = (v, s') /\ dead s' /\ is_fail s' = true.
Proof. intros D. rewrite get_char_dead by exact D. do 2 eexists. split; [reflexivity|]. split; [apply dead_fail; exact D|apply set_state_fail]. Qed.
Lemma dead_unsigned s : dead s -> exists v s', get_unsigned 0 s = (v, s') /\ dead s' /\ is_fail s' = true.
Proof. intros D. rewrite get_unsigned_dead by exact D. do 2 eexists. split; [reflexivity|]. split; [apply dead_fail; exact D|apply set_state_fail]. Qed.
Lemma dead_bool s : dead s -> exists v s', get_bool false s = (v, s') /\ dead s' /\ is_fail s' = true.
Proof. intros D. rewrite get_bool_dead by exact D. do 2 eexists. split; [reflexivity|]. split; [apply dead_fail; exact D|apply set_state_fail]. Qed.

(** Finishes a goal about a record whose next field is read from a dead stream. *)
Ltac dying D :=
  match type of D with dead ?x =>
    first
    [ let v := fresh "v" in let s := fresh "s" in let E := fresh "E" in let D' := fresh "D" in let F := fresh "F" in
      match goal with
      | |- context [get_char 0 x] => destruct (dead_char x D) as (v & s & E & D' & F)
      | |- context [get_unsigned 0 x] => destruct (dead_unsigned x D) as (v & s & E & D' & F)
      | |- context [get_bool false x] => destruct (dead_bool x D) as (v & s & E & D' & F)
      end; rewrite E; clear E; dying D'
    | unfold is_ok; match goal with F : is_fail x = true |- _ => rewrite F end; cbn [negb];
      eexists; split; [reflexivity|exact D] ]
  end.

Lemma raw_nil_dead b : dead (mkis [] true b false).
Proof. split; reflexivity. Qed.

Lemma read_record_cut n q c t : storable_node n -> write_node n = q ++ c :: t ->
  exists s, read_record (raw q) = (None, s) /\ dead s.
Proof.
  intros (Hc & Hp & Hs) E.
  assert (P : prefix q (write_node n)) by (exists (c :: t); exact E).
  unfold read_record, write_node in *.
  destruct (get_uint_cut 4294967296 0 [] (fn_char n) _ q false (Forall_nil _) (fun _ => eq_refl) Hc ltac:(lia)
    (eq_refl : stops is_digit ([32] ++ _)) P) as [(q1 & Eq1 & P1 & G)|(v & s & G & D & _)];
    fold get_unsigned in G; rewrite G; clear G; [|dying D].
  destruct (prefix_cons _ _ _ P1) as [->|(q2 & -> & P2)]; [cbn [null]; pose proof (raw_nil_dead false) as D; dying D|].
  cbn [null]. rewrite get_char_one.
  destruct (get_uint_cut 4294967296 0 [] (fn_pos n) _ q2 false (Forall_nil _) (fun _ => eq_refl) Hp ltac:(lia)
    (eq_refl : stops is_digit ([32] ++ _)) P2) as [(q3 & Eq3 & P3 & G)|(v & s & G & D & _)];
    fold get_unsigned in G; rewrite G; clear G; [|dying D].
  destruct (prefix_cons _ _ _ P3) as [->|(q4 & -> & P4)]; [cbn [null]; pose proof (raw_nil_dead false) as D; dying D|].
  cbn [null]. rewrite get_char_one.
  destruct (get_uint_cut 4294967296 0 [] (fn_count n) _ q4 false (Forall_nil _) (fun _ => eq_refl) Hs ltac:(lia)
    (eq_refl : stops is_digit ([32] ++ _)) P4) as [(q5 & Eq5 & P5 & G)|(v & s & G & D & _)];
    fold get_unsigned in G; rewrite G; clear G; [|dying D].
  destruct (prefix_cons _ _ _ P5) as [->|(q6 & -> & P6)]; [cbn [null]; pose proof (raw_nil_dead false) as D; dying D|].
  cbn [null]. rewrite get_char_one.
  destruct (get_bool_cut false [] (fn_term n) _ q6 false (Forall_nil _) (fun _ => eq_refl)
    (eq_refl : stops is_digit [10]) P6) as [(q7 & Eq7 & P7 & G)|(v & s & G & D & _)];
    rewrite G; clear G; [|dying D].
  destruct (prefix_cons _ _ _ P7) as [->|(q8 & -> & P8)]; [cbn [null]; pose proof (raw_nil_dead false) as D; dying D|].
  exfalso. cbn [app] in Eq1, Eq3, Eq5, Eq7. subst q q2 q4 q6. apply (f_equal (@List.length Z)) in E.
  rewrite !app_length in E. cbn [List.length] in E. rewrite !app_length in E. cbn [List.length] in E.
  rewrite !app_length in E. cbn [List.length] in E. rewrite !app_length in E. cbn [List.length] in E. lia.
Qed.

(** Lines. *)
Lemma lines_app a b : lines (a ++ b) = (lines a + lines b)%nat.
Proof. apply count_occ_app. Qed.
Lemma lines_digits l : Forall (fun c => is_digit c = true) l -> lines l = O.
Proof.
  intros H. apply count_occ_not_In. intros I. rewrite Forall_forall in H. specialize (H _ I). discriminate.
Qed.
Lemma lines_uint n : 0 <= n -> lines (print_uint n) = O.
Proof. intros H. apply lines_digits, print_uint_digits, H. Qed.
(** The text of a node without its new line. *)
Lemma write_node_line n : storable_node n -> exists l, write_node n = l ++ [10] /\ lines l = O.
Proof.
  intros (Hc & Hp & Hs). unfold write_node.
  exists (print_uint (fn_char n) ++ [32] ++ print_uint (fn_pos n) ++ [32] ++ print_uint (fn_count n) ++ [32] ++ print_bool (fn_term n)).
  split; [rewrite <- !app_assoc; reflexivity|].
  rewrite !lines_app, !lines_uint by lia. destruct (fn_term n); reflexivity.
Qed.
Lemma write_node_lines n : storable_node n -> lines (write_node n) = 1%nat.
Proof. intros H. destruct (write_node_line n H) as (l & -> & E). rewrite lines_app, E. reflexivity. Qed.
Lemma cut_lines n q c t : storable_node n -> write_node n = q ++ c :: t -> lines q = O.
Proof.
  intros H E. destruct (write_node_line n H) as (l & El & L). rewrite El in E.
  destruct (exists_last (l := c :: t) ltac:(discriminate)) as (u & x & Eu). rewrite Eu in E.
  rewrite app_assoc in E. apply app_inj_tail in E as [-> _]. rewrite lines_app in L. lia.
Qed.

Lemma write_dict_length ns : (List.length ns <= List.length (write_dict ns))%nat.
Proof.
  induction ns as [|n ns IH]; [cbn; lia|]. unfold write_dict in *. cbn [flat_map List.length].
  rewrite app_length. unfold write_node at 1. rewrite !app_length. cbn [List.length]. lia.
Qed.

Lemma read_dict_prefix ns q : Forall storable_node ns -> prefix q (write_dict ns) ->
  exists s, read_dict (open_stream q) = Ok (firstn (lines q) ns, s) /\ is_eof s = true.
Proof.
  intros Hns P. unfold read_dict, open_stream, set_skipws. cbn [is_rest is_eof is_fail is_skipws].
  match goal with |- exists s, bind (loop ?n ?b _) _ = _ /\ _ => set (body := b); set (fuel := n) end.
  assert (G : forall rest done q fuel, prefix q (write_dict rest) -> Forall storable_node rest -> (List.length q < fuel)%nat ->
    exists s, loop fuel body (done, raw q) = Ok (done ++ firstn (lines q) rest, s) /\ is_eof s = true).
  { clear. induction rest as [|n rest IH]; intros done q fuel P Hr Hf;
      (destruct fuel as [|fuel]; [lia|]); cbn [loop]; unfold body at 1.
    - apply prefix_nil in P. subst q. cbn. eexists. split; [rewrite app_nil_r; reflexivity|]. reflexivity.
    - inversion Hr as [|? ? Hn Hr']; subst. unfold write_dict in P. cbn [flat_map] in P. fold (write_dict rest) in P.
      destruct (prefix_app q _ _ P) as [(q' & -> & P')|(c & t & E)].
      + rewrite read_record_written by exact Hn. cbn [Z.eqb Pos.eqb negb orb bind].
        rewrite lines_app, write_node_lines by exact Hn. cbn [Nat.add firstn].
        destruct (IH (done ++ [n]) q' fuel P' Hr') as (s & E & He).
        * rewrite app_length in Hf. unfold write_node in Hf. rewrite !app_length in Hf. cbn [List.length] in Hf. lia.
        * exists s. split; [rewrite E, <- app_assoc; reflexivity|exact He].
      + destruct (read_record_cut n q c t Hn E) as (s & -> & [He _]). cbn [bind].
        rewrite (cut_lines n q c t Hn E). cbn [firstn]. exists s. rewrite app_nil_r. split; [reflexivity|exact He]. }
  destruct (G ns [] q fuel P Hns) as (s & E & He); [unfold fuel; lia|].
  rewrite E. cbn [bind app]. eexists. split; [reflexivity|]. exact He.
Qed.

Lemma dict_file_prefix ns q : Forall storable_node ns -> prefix q (write_dict ns) ->
  load_file read_dict q = Ok (firstn (lines q) ns).
Proof.
  intros H P. destruct (read_dict_prefix ns q H P) as (s & E & He).
  unfold load_file. rewrite E. cbn [bind]. rewrite He. reflexivity.
Qed.

Lemma write_dict_lines ns : Forall storable_node ns -> lines (write_dict ns) = List.length ns.
Proof.
  intros H. induction H as [|n ns Hn H IH]; [reflexivity|]. unfold write_dict in *. cbn [flat_map].
  rewrite lines_app, write_node_lines, IH by exact Hn. reflexivity.
Qed.

Lemma dict_file_round_trip ns : Forall storable_node ns -> load_file read_dict (write_dict ns) = Ok ns.
Proof.
  intros H. rewrite (dict_file_prefix ns) by (assumption || (exists []; rewrite app_nil_r; reflexivity)).
  rewrite write_dict_lines by exact H. rewrite firstn_all. reflexivity.
Qed.
