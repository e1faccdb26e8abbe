From Verif Require Import Base BaseProofs ProofTools SortModel SortProofs DatasModel UtfModel UtfSpec UtfProofs DictIoModel DictIoSpec TrieModel TrieSpec TrieProofs FlatTrieProofs DictionaryProofs SpellModel SpellSpec.
From Coq Require Import Permutation Sorted.

(** Tries whose values satisfy [P]. *)
Inductive all_values (P : Z -> Prop) : list tnode -> Prop :=
| av t : (forall n, In n t -> P (tvalue n) /\ all_values P (tkids n)) -> all_values P t.

Lemma all_values_inv P t : all_values P t -> forall n, In n t -> P (tvalue n) /\ all_values P (tkids n).
Proof. inversion 1; assumption. Qed.

Lemma insert_after_values P fuel : forall words first last depth nodes t,
  (forall w, In w words -> Forall P w) -> all_values P nodes ->
  insert_after fuel words first last depth nodes = Ok t -> all_values P t.
Proof.
  induction fuel as [|fuel IH]; intros words first last depth nodes t Hw Hn E; [discriminate|]. cbn [insert_after] in E.
  destruct (first =? last); [injection E as <-; exact Hn|].
  destruct (rd words first) as [w| | |] eqn:Ew; try discriminate. cbn [bind] in E.
  destruct (rd w depth) as [c| | |] eqn:Ec; try discriminate. cbn [bind] in E.
  destruct (partition_point _ first last) as [middle| | |]; try discriminate. cbn [bind] in E.
  destruct (insert_after fuel words _ middle _ []) as [sub| | |] eqn:Es; try discriminate. cbn [bind] in E.
  apply IH in E; [exact E|exact Hw|]. apply IH in Es; [|exact Hw|constructor; intros n []].
  constructor. intros n Hin. apply in_app_or in Hin. destruct Hin as [Hin|[<-|[]]].
  - inversion Hn; subst; auto.
  - cbn [tvalue tkids]. split; [|exact Es]. apply rd_In in Ew. specialize (Hw w Ew). rewrite Forall_forall in Hw. apply Hw. apply rd_In with depth. exact Ec.
Qed.

(** Deciding what a trie spells. *)
Fixpoint spellsb (w : list Z) (t : list tnode) : bool :=
  match w with
  | [] => false
  | c :: w' =>
    match find (fun n => tvalue n =? c) t with
    | None => false
    | Some n => match w' with [] => tterm n | _ :: _ => spellsb w' (tkids n) end
    end
  end.
Lemma find_value t c n : find (fun n => tvalue n =? c) t = Some n -> In n t /\ tvalue n = c.
Proof. intros H. apply find_some in H. rewrite Z.eqb_eq in H. exact H. Qed.
Lemma spellsb_ok w : forall t, well_ordered t -> (spellsb w t = true <-> spells t w).
Proof.
  induction w as [|c w IH]; intros t O; cbn [spellsb]; [split; [discriminate|inversion 1]|].
  destruct (find (fun n => tvalue n =? c) t) as [n|] eqn:En.
  - apply find_value in En. destruct En as [Hn <-]. rewrite (spells_child t n w O Hn).
    assert (O' : well_ordered (tkids n)) by (inversion O; auto).
    destruct w as [|d w].
    + split; [left; auto|]. intros [[_ H]|H]; [exact H|inversion H].
    + rewrite (IH _ O'). split; [right; assumption|]. intros [[H _]|H]; [discriminate|exact H].
  - split; [discriminate|]. intros H. exfalso.
    assert (forall b kids, ~ In (TN c b kids) t).
    { intros b kids Hin. pose proof (find_none _ _ En _ Hin) as X. cbn [tvalue] in X. rewrite Z.eqb_refl in X. discriminate. }
    inversion H; subst; eapply H0; eauto.
Qed.
Lemma spellsb_nil w : spellsb w [] = false.
Proof. destruct w; reflexivity. Qed.

(** The first child found by the search is the one of [find]. *)
Lemma search_find nodes lo t c : rep nodes lo t -> well_ordered t ->
  exists i, range_lower_bound nodes lo (lo + vsize t) c = Ok i /\
    match find (fun n => tvalue n =? c) t with
    | Some n => i <> lo + vsize t /\ exists e, rd nodes i = Ok e /\ fn_char e = c /\ fn_term e = tterm n /\
        fn_count e = vsize (tkids n) /\ rep nodes (i + fn_pos e) (tkids n) /\ well_ordered (tkids n) /\ In n t /\ tvalue n = c
    | None => i = lo + vsize t \/ (i <> lo + vsize t /\ exists e, rd nodes i = Ok e /\ fn_char e <> c)
    end.
Proof.
  intros R O. destruct (search_child nodes lo t c R O) as (i & Ei & Hi & H). exists i. split; [exact Ei|].
  destruct (find (fun n => tvalue n =? c) t) as [n|] eqn:En.
  - pose proof (find_value _ _ _ En) as [Hn Vn]. destruct H as [(m & Hm & Vm & Hlt & e & Re & Ce & Te & Ke & Rk)|[Hno _]]; [|destruct (Hno n Hn Vn)].
    assert (m = n).
    { assert (Vmn : tvalue m = tvalue n) by congruence. assert (Os : StronglySorted Z.lt (map tvalue t)) by (inversion O; assumption).
      clear -Os Hm Hn Vmn. induction t as [|x t IH]; [destruct Hm|]. cbn [map] in Os. inversion Os as [|? ? S1 F]; subst. rewrite Forall_forall in F.
      destruct Hm as [<-|Hm], Hn as [<-|Hn]; auto.
      - exfalso. pose proof (F _ (in_map tvalue _ _ Hn)). lia.
      - exfalso. pose proof (F _ (in_map tvalue _ _ Hm)). lia. }
    subst m. split; [lia|]. exists e. repeat (split; [assumption|]). split; [inversion O; auto|]. auto.
  - destruct H as [(m & Hm & Vm & _)|[_ [H|(Hlt & H)]]].
    + pose proof (find_none _ _ En _ Hm) as X. cbn in X. apply Z.eqb_neq in X. contradiction.
    + left. exact H.
    + right. split; [lia|exact H].
Qed.

Definition answer (out : list Z) (o : option (list Z)) : bool * list Z :=
  match o with Some w => (true, out ++ rev (text_of w)) | None => (false, out) end.

Definition good (t : list tnode) : Prop := well_ordered t /\ all_values (fun v => exists c, is_char c /\ v = packed c) t.
Lemma good_kids t n : good t -> In n t -> good (tkids n).
Proof. intros [O V] Hn. inversion O; subst. inversion V; subst. split; [auto|]. apply H1. exact Hn. Qed.

Lemma find_ext {A} (f g : A -> bool) l : (forall a, In a l -> f a = g a) -> find f l = find g l.
Proof.
  induction l as [|x l IH]; intros H; [reflexivity|]. cbn [find]. rewrite (H x (or_introl eq_refl)).
  destruct (g x); [reflexivity|]. apply IH. intros a Ha. apply H. right. exact Ha.
Qed.
Lemma find_false {A} (l : list A) : find (fun _ => false) l = None.
Proof. induction l; [reflexivity|assumption]. Qed.
Lemma find_map {A B} (f : B -> bool) (g : A -> B) l : find f (map g l) = option_map g (find (fun a => f (g a)) l).
Proof. induction l as [|x l IH]; [reflexivity|]. cbn [map find]. destruct (f (g x)); [reflexivity|exact IH]. Qed.
Lemma find_app {A} (f : A -> bool) a b : find f (a ++ b) = match find f a with Some x => Some x | None => find f b end.
Proof. induction a as [|x a IH]; [reflexivity|]. cbn [app find]. destruct (f x); [reflexivity|exact IH]. Qed.

Section Candidate.
Context (nodes : list fnode) (next : Z -> Z -> list Z -> res (bool * list Z)) (R : list (list Z)).
Hypothesis (HR : forall w, In w R -> w <> [])
  (Hnext : forall lo t out, rep nodes lo t -> good t ->
    next lo (lo + vsize t) out = Ok (answer out (find (fun w => spellsb (map packed w) t) R))).

Lemma utf_char_ok s : forall c pre mem fuel lo t out,
  Forall is_char (c :: s) -> (List.length s < fuel)%nat -> mem = text_of (pre ++ c :: s) ++ [0] ->
  rep nodes lo t -> good t ->
  utf_char nodes false next fuel mem (packed c) (vsize (text_of (pre ++ [c]))) lo (lo + vsize t) out =
  Ok (answer out (option_map (fun w => (c :: s) ++ w) (find (fun w => spellsb (map packed ((c :: s) ++ w)) t) R))).
Proof.
  induction s as [|d s IH]; intros c pre mem fuel lo t out Hs Hf Em Rt Gt; (destruct fuel as [|fuel]; [lia|]); cbn [utf_char];
    destruct (search_find nodes lo t (packed c) Rt (proj1 Gt)) as (i & -> & Hi); cbn [bind];
    pose proof (Forall_inv Hs) as Hc.
  - assert (Eq : find (fun w => spellsb (map packed ([c] ++ w)) t) R =
      match find (fun n => tvalue n =? packed c) t with Some n => find (fun w => spellsb (map packed w) (tkids n)) R | None => None end).
    { destruct (find (fun n => tvalue n =? packed c) t) as [n|] eqn:En.
      - apply find_ext. intros w Hw. cbn [app map spellsb]. rewrite En. destruct w as [|x w]; [destruct (HR [] Hw eq_refl)|]. reflexivity.
      - rewrite <- (find_false R). apply find_ext. intros w _. cbn [app map spellsb]. rewrite En. reflexivity. }
    rewrite Eq. clear Eq. destruct (find (fun n => tvalue n =? packed c) t) as [n|].
    2: { cbn [option_map answer]. destruct Hi as [->|(Hne & e & Re & Ce)]; [rewrite Z.eqb_refl; reflexivity|].
         destruct (Z.eqb_spec i (lo + vsize t)); [contradiction|]. rewrite Re. cbn [bind]. destruct (Z.eqb_spec (fn_char e) (packed c)); [contradiction|reflexivity]. }
    destruct Hi as (Hne & e & Re & Ce & Te & Ke & Rk & Ok' & Hn & Vn).
    destruct (Z.eqb_spec i (lo + vsize t)); [contradiction|]. rewrite Re. cbn [bind]. rewrite Ce, Z.eqb_refl, Ke.
    destruct (Z.eqb_spec (vsize (tkids n)) 0) as [E0|E0].
    { destruct (tkids n) as [|k ks]; [|rewrite vsize_cons in E0; pose proof (vsize_nonneg ks); lia].
      rewrite (find_ext _ (fun _ => false)), find_false; [reflexivity|]. intros w _. apply spellsb_nil. }
    assert (En : utf8_next mem (vsize (text_of (pre ++ [c]))) = Ok (0, vsize (text_of (pre ++ [c])) + 1)).
    { rewrite Em. apply (proj1 (next_end (text_of (pre ++ [c])) _ eq_refl)). }
    rewrite En. cbn [bind]. unfold child_range. rewrite Z.eqb_refl, Ke.
    rewrite (Hnext _ _ out Rk (good_kids t n Gt Hn)). cbn [bind]. unfold answer.
    destruct (find (fun w => spellsb (map packed w) (tkids n)) R) as [w|]; cbn [bind option_map]; [|reflexivity].
    rewrite set_c_ok by exact Hc. f_equal. f_equal. rewrite <- app_assoc. f_equal.
    cbn [app]. change (text_of (c :: w)) with (encode c ++ text_of w). rewrite rev_app_distr. reflexivity.
  - assert (Eq : find (fun w => spellsb (map packed ((c :: d :: s) ++ w)) t) R =
      match find (fun n => tvalue n =? packed c) t with Some n => find (fun w => spellsb (map packed ((d :: s) ++ w)) (tkids n)) R | None => None end).
    { destruct (find (fun n => tvalue n =? packed c) t) as [n|] eqn:En.
      - apply find_ext. intros w Hw. cbn [app map spellsb]. rewrite En. reflexivity.
      - rewrite <- (find_false R). apply find_ext. intros w _. cbn [app map spellsb]. rewrite En. reflexivity. }
    rewrite Eq. clear Eq. destruct (find (fun n => tvalue n =? packed c) t) as [n|].
    2: { cbn [option_map answer]. destruct Hi as [->|(Hne & e & Re & Ce)]; [rewrite Z.eqb_refl; reflexivity|].
         destruct (Z.eqb_spec i (lo + vsize t)); [contradiction|]. rewrite Re. cbn [bind]. destruct (Z.eqb_spec (fn_char e) (packed c)); [contradiction|reflexivity]. }
    destruct Hi as (Hne & e & Re & Ce & Te & Ke & Rk & Ok' & Hn & Vn).
    destruct (Z.eqb_spec i (lo + vsize t)); [contradiction|]. rewrite Re. cbn [bind]. rewrite Ce, Z.eqb_refl, Ke.
    destruct (Z.eqb_spec (vsize (tkids n)) 0) as [E0|E0].
    { destruct (tkids n) as [|k ks]; [|rewrite vsize_cons in E0; pose proof (vsize_nonneg ks); lia].
      rewrite (find_ext _ (fun _ => false)), find_false; [reflexivity|]. intros w _. apply spellsb_nil. }
    pose proof (Forall_inv_tail Hs) as Hs'. pose proof (Forall_inv Hs') as Hd.
    assert (En : utf8_next mem (vsize (text_of (pre ++ [c]))) = Ok (packed d, vsize (text_of ((pre ++ [c]) ++ [d])))).
    { rewrite Em. replace (pre ++ c :: d :: s) with ((pre ++ [c]) ++ d :: s) by (rewrite <- app_assoc; reflexivity).
      unfold text_of at 1. rewrite flat_map_app, <- app_assoc. cbn [flat_map]. rewrite <- app_assoc.
      rewrite (proj1 (next_char (text_of (pre ++ [c])) d _ (vsize (text_of (pre ++ [c]))) Hd eq_refl)).
      f_equal. f_equal. unfold text_of. rewrite (flat_map_app _ (pre ++ [c]) [d]), vsize_app. cbn [flat_map]. rewrite app_nil_r. reflexivity. }
    rewrite En. cbn [bind]. unfold child_range. destruct (Z.eqb_spec (packed d) 0) as [Z0|_]; [destruct (packed_nonzero d Hd Z0)|]. rewrite Ke.
    rewrite (IH d (pre ++ [c]) mem fuel _ _ out Hs').
    2: { cbn [List.length] in Hf. lia. } 2: { rewrite Em, <- app_assoc. reflexivity. } 2: { exact Rk. } 2: { exact (good_kids t n Gt Hn). }
    cbn [bind]. unfold answer.
    destruct (find (fun w => spellsb (map packed ((d :: s) ++ w)) (tkids n)) R) as [w|]; cbn [bind option_map]; [|reflexivity].
    rewrite set_c_ok by exact Hc. f_equal. f_equal. rewrite <- app_assoc. f_equal.
    change (text_of ((c :: d :: s) ++ w)) with (encode c ++ text_of ((d :: s) ++ w)). rewrite rev_app_distr. reflexivity.
Qed.
End Candidate.

Lemma utf_char_last nodes next fuel mem c p lo t out : is_char c -> rep nodes lo t -> good t ->
  utf_char nodes true next (S fuel) mem (packed c) p lo (lo + vsize t) out =
  Ok (answer out (if spellsb [packed c] t then Some [c] else None)).
Proof.
  intros Hc Rt Gt. cbn [utf_char]. destruct (search_find nodes lo t (packed c) Rt (proj1 Gt)) as (i & -> & Hi). cbn [bind spellsb].
  destruct (find (fun n => tvalue n =? packed c) t) as [n|].
  - destruct Hi as (Hne & e & Re & Ce & Te & _). destruct (Z.eqb_spec i (lo + vsize t)); [contradiction|]. rewrite Re. cbn [bind]. rewrite Ce, Z.eqb_refl, Te.
    destruct (tterm n); [|reflexivity]. rewrite set_c_ok by exact Hc. unfold answer, text_of. cbn [flat_map]. rewrite app_nil_r. reflexivity.
  - destruct Hi as [->|(Hne & e & Re & Ce)]; [rewrite Z.eqb_refl; reflexivity|].
    destruct (Z.eqb_spec i (lo + vsize t)); [contradiction|]. rewrite Re. cbn [bind]. destruct (Z.eqb_spec (fn_char e) (packed c)); [contradiction|reflexivity].
Qed.

Lemma utf_char_empty nodes last next fuel mem p lo t out : rep nodes lo t -> good t ->
  utf_char nodes last next (S fuel) mem 0 p lo (lo + vsize t) out = Ok (false, out).
Proof.
  intros Rt Gt. cbn [utf_char]. destruct (search_find nodes lo t 0 Rt (proj1 Gt)) as (i & -> & Hi). cbn [bind].
  destruct (find (fun n => tvalue n =? 0) t) as [n|].
  - exfalso. destruct Hi as (_ & e & _ & _ & _ & _ & _ & _ & Hn & Vn). destruct Gt as [_ V]. inversion V as [? V']; subst.
    destruct (V' n Hn) as [(c & Hc & E) _]. apply (packed_nonzero c Hc). congruence.
  - destruct Hi as [->|(Hne & e & Re & Ce)]; [rewrite Z.eqb_refl; reflexivity|].
    destruct (Z.eqb_spec i (lo + vsize t)); [contradiction|]. rewrite Re. cbn [bind]. destruct (Z.eqb_spec (fn_char e) 0); [contradiction|reflexivity].
Qed.

Lemma try_all_ok (one : list Z -> list Z -> res (bool * list Z)) (g : list Z -> option (list Z)) (f : list Z -> list (list Z)) P cands out :
  (forall s, In s cands -> one (text_of s) out = Ok (answer out (g s))) ->
  (forall s, In s cands -> g s = if nonempty s then find P (f s) else None) ->
  try_all one (map text_of cands) out = Ok (answer out (find P (flat_map f (filter nonempty cands)))).
Proof.
  intros H1 H2. induction cands as [|s cands IH]; [reflexivity|]. cbn [map try_all filter].
  rewrite (H1 s (or_introl eq_refl)), (H2 s (or_introl eq_refl)). cbn [bind].
  assert (IH' : try_all one (map text_of cands) out = Ok (answer out (find P (flat_map f (filter nonempty cands))))).
  { apply IH; intros; [apply H1|apply H2]; right; assumption. }
  destruct (nonempty s); [|cbn [answer]; exact IH'].
  cbn [flat_map]. rewrite find_app. destruct (find P (f s)) as [w|]; [reflexivity|]. cbn [answer]. exact IH'.
Qed.

Lemma readable_nonempty ps : ps <> [] -> Forall (Forall (Forall is_char)) ps -> forall w, In w (choices (readable ps)) -> w <> [].
Proof.
  intros Hne _ w Hw. destruct ps as [|cands rest]; [congruence|].
  assert (F : forall s, In s (filter nonempty cands) -> exists c s', s = c :: s').
  { intros s Hs. apply filter_In in Hs. destruct Hs as [_ Hs]. destruct s as [|c s']; [discriminate|eauto]. }
  destruct rest as [|r rs].
  - cbn [readable choices] in Hw. apply in_flat_map in Hw. destruct Hw as (s & Hs & Hw). apply in_map_iff in Hs. destruct Hs as (s' & <- & Hs').
    destruct (F _ Hs') as (c & x & ->). cbn [firstn map] in Hw. destruct Hw as [<-|[]]. discriminate.
  - change (readable (cands :: r :: rs)) with (filter nonempty cands :: readable (r :: rs)) in Hw. cbn [choices] in Hw. apply in_flat_map in Hw. destruct Hw as (s & Hs & Hw).
    destruct (F _ Hs) as (c & x & ->). apply in_map_iff in Hw. destruct Hw as (y & <- & _). discriminate.
Qed.

Lemma impl_ok nodes ps : ps <> [] -> Forall (Forall (Forall is_char)) ps ->
  forall lo t out, rep nodes lo t -> good t ->
  disambiguous_impl nodes lo (lo + vsize t) (texts ps) out =
  Ok (answer out (find (fun w => spellsb (map packed w) t) (choices (readable ps)))).
Proof.
  induction ps as [|cands rest IH]; intros Hne Hps lo t out Rt Gt; [congruence|].
  pose proof (Forall_inv Hps) as Hcands. rewrite Forall_forall in Hcands. pose proof (Forall_inv_tail Hps) as Hrest.
  cbn [texts map disambiguous_impl]. fold (texts rest).
  destruct rest as [|r rs].
  - cbn [texts map readable choices].
    replace (flat_map (fun s : list Z => [s ++ []]) (map (firstn 1) (filter nonempty cands)))
      with (flat_map (fun s : list Z => [firstn 1 s ++ []]) (filter nonempty cands)).
    2: { rewrite !flat_map_concat_map, map_map. reflexivity. }
    apply try_all_ok with (g := fun s => match s with [] => None | c :: _ => if spellsb [packed c] t then Some [c] else None end).
    + intros s Hs. specialize (Hcands s Hs). destruct s as [|c s].
      * change (utf8_next (c_str (text_of [])) 0) with (utf8_next ([] ++ [0]) 0). rewrite (proj1 (next_end [] 0 eq_refl)). cbn [bind answer]. apply utf_char_empty; assumption.
      * pose proof (Forall_inv Hcands) as Hc. unfold c_str. change (text_of (c :: s)) with (encode c ++ text_of s). rewrite <- app_assoc.
        pose proof (proj1 (next_char [] c (text_of s ++ [0]) 0 Hc eq_refl)) as NC. cbn [app] in NC. rewrite NC. cbn [bind].
        rewrite utf_char_last by assumption. reflexivity.
    + intros [|c s] _; [reflexivity|]. cbn [nonempty firstn map find app]. destruct (spellsb [packed c] t); reflexivity.
  - change (readable (cands :: r :: rs)) with (filter nonempty cands :: readable (r :: rs)). cbn [choices].
    set (R := choices (readable (r :: rs))).
    apply try_all_ok with (g := fun s => match s with [] => None | c :: _ => option_map (fun w => s ++ w) (find (fun w => spellsb (map packed (s ++ w)) t) R) end).
    + intros s Hs. specialize (Hcands s Hs). destruct s as [|c s].
      * change (utf8_next (c_str (text_of [])) 0) with (utf8_next ([] ++ [0]) 0). rewrite (proj1 (next_end [] 0 eq_refl)). cbn [bind answer]. apply utf_char_empty; assumption.
      * pose proof (Forall_inv Hcands) as Hc.
        assert (En : utf8_next (c_str (text_of (c :: s))) 0 = Ok (packed c, vsize (text_of ([] ++ [c])))).
        { unfold c_str. change (text_of (c :: s)) with (encode c ++ text_of s). rewrite <- app_assoc.
          pose proof (proj1 (next_char [] c (text_of s ++ [0]) 0 Hc eq_refl)) as NC. cbn [app] in NC. rewrite NC. unfold text_of. cbn [app flat_map]. rewrite app_nil_r. reflexivity. }
        rewrite En. cbn [bind].
        assert (En2 : match texts (r :: rs) with [] => true | _ :: _ => false end = false) by reflexivity. rewrite En2.
        apply (utf_char_ok nodes _ R).
        -- apply readable_nonempty; [discriminate|exact Hrest].
        -- intros lo' t' out' Rt' Gt'. apply IH; [discriminate|exact Hrest|exact Rt'|exact Gt'].
        -- exact Hcands.
        -- pose proof (text_length (c :: s)) as L. unfold vsize in L. cbn [List.length] in *. lia.
        -- reflexivity.
        -- exact Rt.
        -- exact Gt.
    + intros [|c s] _; [reflexivity|]. cbn [nonempty]. rewrite find_map. reflexivity.
Qed.

(** Arbitrary candidates: what is output was read in the trie. *)
Definition sound (t : list tnode) (out : list Z) (r : bool * list Z) : Prop :=
  match r with
  | (true, out') => exists cs, Forall is_char cs /\ spells t (map packed cs) /\ out' = out ++ rev (text_of cs)
  | (false, out') => out' = out
  end.

Lemma utf_char_sound nodes last next :
  (forall lo t out r, rep nodes lo t -> good t -> next lo (lo + vsize t) out = Ok r -> sound t out r) ->
  forall fuel mem c p lo t out r, rep nodes lo t -> good t ->
  utf_char nodes last next fuel mem c p lo (lo + vsize t) out = Ok r -> sound t out r.
Proof.
  intros Hnext. induction fuel as [|fuel IH]; intros mem c p lo t out r Rt Gt E; [discriminate|]. cbn [utf_char] in E.
  destruct (search_find nodes lo t c Rt (proj1 Gt)) as (i & Ei & Hi). rewrite Ei in E. cbn [bind] in E.
  destruct (find (fun n => tvalue n =? c) t) as [n|].
  - destruct Hi as (Hne & e & Re & Ce & Te & Ke & Rk & Ok' & Hn & Vn).
    destruct (Z.eqb_spec i (lo + vsize t)); [contradiction|]. rewrite Re in E. cbn [bind] in E. rewrite Ce, Z.eqb_refl in E.
    assert (exists d, is_char d /\ c = packed d) as (d & Hd & Ed).
    { destruct Gt as [_ V]. destruct (all_values_inv _ _ V n Hn) as [(d & Hd & Hv) _]. exists d. split; [exact Hd|congruence]. }
    destruct n as [v b kids]. cbn [tvalue tterm tkids] in *. subst v.
    destruct last.
    + rewrite Te in E. destruct b; injection E as <-; cbn [sound]; [|reflexivity].
      exists [d]. split; [constructor; [exact Hd|constructor]|]. split; [cbn [map]; rewrite <- Ed; apply spells_end with kids; exact Hn|].
      rewrite Ed, set_c_ok by exact Hd. unfold text_of. cbn [flat_map]. rewrite app_nil_r. reflexivity.
    + destruct (fn_count e =? 0); [injection E as <-; reflexivity|].
      destruct (utf8_next mem p) as [[c' p']| | |]; try discriminate. cbn [bind] in E. unfold child_range in E. rewrite Ke in E.
      pose proof (good_kids _ _ Gt Hn) as Gk. cbn [tkids] in Gk.
      match type of E with bind ?m _ = _ => destruct m as [[b' out']| | |] eqn:Em; try discriminate end. cbn [bind] in E.
      assert (S : sound kids out (b', out')).
      { destruct (c' =? 0); [apply (Hnext _ _ _ _ Rk Gk Em)|apply (IH _ _ _ _ _ _ _ Rk Gk Em)]. }
      destruct b'; injection E as <-; cbn [sound] in *; [|exact S].
      destruct S as (cs & Hcs & Sp & ->). exists (d :: cs). split; [constructor; assumption|]. split.
      * cbn [map]. rewrite <- Ed. apply spells_step with b kids; assumption.
      * rewrite Ed, set_c_ok by exact Hd. rewrite <- app_assoc. f_equal. change (text_of (d :: cs)) with (encode d ++ text_of cs). rewrite rev_app_distr. reflexivity.
  - assert (r = (false, out)).
    { destruct Hi as [->|(Hne & e & Re & Ce)]; [rewrite Z.eqb_refl in E; congruence|].
      destruct (Z.eqb_spec i (lo + vsize t)); [contradiction|]. rewrite Re in E. cbn [bind] in E. destruct (Z.eqb_spec (fn_char e) c); [contradiction|congruence]. }
    subst r. reflexivity.
Qed.

Lemma impl_sound nodes ps : forall lo t out r, rep nodes lo t -> good t ->
  disambiguous_impl nodes lo (lo + vsize t) ps out = Ok r -> sound t out r.
Proof.
  induction ps as [|cands rest IH]; intros lo t out r Rt Gt E; [discriminate|]. cbn [disambiguous_impl] in E.
  induction cands as [|s cands IHc]; cbn [try_all] in E; [injection E as <-; reflexivity|].
  destruct (utf8_next (c_str s) 0) as [[c p]| | |]; try discriminate. cbn [bind] in E.
  match type of E with bind ?m _ = _ => destruct m as [[b out']| | |] eqn:Em; try discriminate end. cbn [bind] in E.
  apply utf_char_sound with (t := t) in Em; [|exact IH|exact Rt|exact Gt].
  destruct b.
  - injection E as <-. exact Em.
  - cbn [sound] in Em. subst out'. apply IHc. exact E.
Qed.

(** The final reversal. *)
Lemma swap_tail_ok a l : swap_tail (vsize a) (a ++ l) = Ok (a ++ rev l).
Proof.
  unfold swap_tail. set (n := vsize (a ++ l)). set (m := vsize l). set (z := vsize a).
  assert (En : n = z + m) by apply vsize_app.
  pose proof (vsize_nonneg a) as Hz. fold z in Hz. pose proof (vsize_nonneg l) as Hm. fold m in Hm.
  set (val := fun i k => if k <? z then nth (Z.to_nat k) a 0 else
     if ((k - z <? i) || (m - i <=? k - z)) then nth (Z.to_nat (m - 1 - (k - z))) l 0 else nth (Z.to_nat (k - z)) l 0).
  set (Inv := fun i (o : list Z) => vsize o = n /\ forall k, 0 <= k < n -> rd o k = Ok (val i k)).
  assert (D : 0 <= (n - z) / 2 /\ 2 * ((n - z) / 2) <= m /\ m <= 2 * ((n - z) / 2) + 1).
  { replace (n - z) with m by lia. pose proof (Z.div_mod m 2 ltac:(lia)). pose proof (Z.mod_pos_bound m 2 ltac:(lia)). pose proof (Z.div_pos m 2). lia. }
  for_up_with Inv.
  - intros i o Hi [Lo Ho]. assert (Hi' : i < (n - z) / 2) by lia.
    rewrite (Ho (z + i)) by lia. cbn [bind]. rewrite (Ho (n - 1 - i)) by lia. cbn [bind].
    rewrite wr_ok by (fold (vsize o); lia). cbn [bind].
    rewrite wr_ok by (rewrite upd_length; fold (vsize o); lia).
    eexists. split; [reflexivity|]. split; [unfold vsize; rewrite !upd_length; exact Lo|].
    intros k Hk. apply rd_ok; [lia|].
    assert (Rk : nth_error o (Z.to_nat k) = Some (val i k)) by (apply rd_inv with (i := k); apply Ho; lia).
    destruct (Z.eq_dec k (n - 1 - i)) as [->|N1].
    { rewrite upd_nth_same by (rewrite upd_length; unfold vsize in Lo; lia). f_equal. unfold val.
      destruct (Z.ltb_spec (z + i) z); [lia|]. destruct (Z.ltb_spec (n - 1 - i) z); [lia|].
      destruct (Z.ltb_spec (z + i - z) i); [lia|]. destruct (Z.leb_spec (m - i) (z + i - z)); [lia|]. cbn [orb].
      destruct (Z.leb_spec (m - (i + 1)) (n - 1 - i - z)); [|lia]. rewrite orb_true_r. f_equal. lia. }
    rewrite upd_nth_other by lia.
    destruct (Z.eq_dec k (z + i)) as [->|N2].
    { rewrite upd_nth_same by (unfold vsize in Lo; lia). f_equal. unfold val.
      destruct (Z.ltb_spec (z + i) z); [lia|]. destruct (Z.ltb_spec (n - 1 - i) z); [lia|].
      destruct (Z.ltb_spec (n - 1 - i - z) i); [lia|]. destruct (Z.leb_spec (m - i) (n - 1 - i - z)); [lia|]. cbn [orb].
      destruct (Z.ltb_spec (z + i - z) (i + 1)); [|lia]. cbn [orb]. f_equal. lia. }
    rewrite upd_nth_other by lia. rewrite Rk. f_equal. unfold val.
    destruct (Z.ltb_spec k z); [reflexivity|].
    destruct (Z.ltb_spec (k - z) i), (Z.ltb_spec (k - z) (i + 1)), (Z.leb_spec (m - i) (k - z)), (Z.leb_spec (m - (i + 1)) (k - z)); cbn [orb]; try lia; reflexivity.
  - split; [reflexivity|]. intros k Hk. unfold val. destruct (Z.ltb_spec k z).
    + rewrite (rd_nth 0) by (fold (vsize (a ++ l)); lia). rewrite app_nth1; [reflexivity|]. unfold z, vsize in H. lia.
    + destruct (Z.ltb_spec (k - z) 0); [lia|]. destruct (Z.leb_spec (m - 0) (k - z)); [lia|]. cbn [orb].
      rewrite (rd_nth 0) by (fold (vsize (a ++ l)); lia). rewrite app_nth2 by (unfold z, vsize in H; lia). f_equal. f_equal. unfold z, vsize. lia.
  - destruct Hloop as [Lo Ho]. rewrite Z.add_0_l, Z2Nat.id in Ho by lia. f_equal.
    apply nth_error_ext. intros k.
    assert (Ln : List.length st = (List.length a + List.length l)%nat) by (unfold n in Lo; rewrite vsize_app in Lo; unfold vsize in Lo; lia).
    destruct (Nat.lt_ge_cases k (List.length st)) as [Hk|Hk].
    2: { rewrite (proj2 (nth_error_None st k) Hk). symmetry. apply nth_error_None. rewrite app_length, rev_length. lia. }
    pose proof (Ho (Z.of_nat k) ltac:(unfold vsize in Lo; lia)) as Hr. apply rd_inv in Hr. destruct Hr as [_ Hr]. rewrite Nat2Z.id in Hr. rewrite Hr.
    unfold val. destruct (Z.ltb_spec (Z.of_nat k) z) as [Hlt|Hge].
    + rewrite nth_error_app1 by (unfold z, vsize in Hlt; lia). rewrite Nat2Z.id. symmetry. apply nth_error_nth'. unfold z, vsize in Hlt. lia.
    + unfold z, m, vsize in *. rewrite nth_error_app2 by lia.
      rewrite (nth_error_nth' (rev l) 0) by (rewrite rev_length; lia). f_equal. rewrite rev_nth by lia.
      destruct (Z.ltb_spec (Z.of_nat k - Z.of_nat (List.length a)) ((n - Z.of_nat (List.length a)) / 2)); [cbn [orb]; f_equal; lia|].
      destruct (Z.leb_spec (Z.of_nat (List.length l) - (n - Z.of_nat (List.length a)) / 2) (Z.of_nat k - Z.of_nat (List.length a))); cbn [orb]; f_equal; lia.
Qed.

Lemma dictionary_good sort words : is_std_sort (list_ltb Z.ltb) sort -> Forall well_formed words -> ~ In [] words ->
  letters words < 4294967296 ->
  exists css t nodes, Forall (Forall is_char) css /\ words = map text_of css /\
    make_dictionary sort words = Ok nodes /\ rep nodes 0 t /\ good t /\
    match nodes with [] => t = [] | _ :: _ => root_range nodes = Ok (0, 0 + vsize t) end /\
    (forall w, spells t w <-> In w (map (map packed) css)).
Proof.
  intros Hsort Hwf Hne HB. destruct (dictionary_trie sort words Hsort Hwf Hne HB) as (css & t & nodes & Hcs & Ew & Em & En & Ot & Ct & St & l & El & Hl).
  destruct (flatten_correct t Ct) as (nodes' & En' & Hsz & _ & Hrep & Hroot & _ & _).
  assert (nodes' = nodes) by congruence. subst nodes'.
  exists css, t, nodes. split; [exact Hcs|]. split; [exact Ew|]. split; [exact Em|]. split; [exact Hrep|]. split; [|split; [|exact St]].
  - split; [exact Ot|]. unfold make_trie in El. apply insert_after_values with (P := fun v => exists c, is_char c /\ v = packed c) in El; [exact El| |constructor; intros n []].
    intros w Hw. apply Hl in Hw. apply in_map_iff in Hw. destruct Hw as (cs & <- & Hin). rewrite Forall_forall in Hcs. specialize (Hcs cs Hin). rewrite Forall_forall in Hcs.
    apply Forall_forall. intros v Hv. apply in_map_iff in Hv. destruct Hv as (c & <- & Hc). exists c. split; [apply Hcs; exact Hc|reflexivity].
  - assert (Hempty : t = [] <-> nodes = []).
    { split; intros ->.
      - cbn in Hsz. destruct nodes as [|x nodes]; [reflexivity|]. rewrite vsize_cons in Hsz. pose proof (vsize_nonneg nodes). lia.
      - destruct t as [|x t]; [reflexivity|]. change (trie_count (x :: t)) with (node_count x + trie_count t) in Hsz. pose proof (node_count_pos x). pose proof (trie_count_nonneg t). change (vsize (@nil fnode)) with 0 in Hsz. lia. }
    destruct nodes as [|x nodes']; [apply Hempty; reflexivity|]. apply Hroot. intros E. apply Hempty in E. discriminate.
Qed.

Lemma choices_texts ps : choices (texts ps) = map text_of (choices ps).
Proof.
  induction ps as [|cands rest IH]; [reflexivity|]. cbn [texts map choices]. fold (texts rest). rewrite IH.
  induction cands as [|s cands IHc]; [reflexivity|]. cbn [map flat_map]. rewrite map_app, IHc. f_equal.
  rewrite !map_map. apply map_ext. intros w. unfold text_of. rewrite flat_map_app. reflexivity.
Qed.

Lemma choices_chars ps : Forall (Forall (Forall is_char)) ps -> Forall (Forall is_char) (choices ps).
Proof.
  induction 1 as [|cands rest Hc _ IH]; [repeat constructor|]. cbn [choices]. rewrite Forall_forall in *. intros w Hw.
  apply in_flat_map in Hw. destruct Hw as (s & Hs & Hw). apply in_map_iff in Hw. destruct Hw as (x & <- & Hx).
  apply Forall_app. split; [apply Hc; exact Hs|apply IH; exact Hx].
Qed.
Lemma readable_chars ps : Forall (Forall (Forall is_char)) ps -> Forall (Forall (Forall is_char)) (readable ps).
Proof.
  assert (F : forall cands, Forall (Forall is_char) cands -> Forall (Forall is_char) (filter nonempty cands)).
  { intros cands H. rewrite Forall_forall in *. intros s Hs. apply filter_In in Hs. apply H. apply Hs. }
  induction 1 as [|cands rest Hc Hr IH]; [constructor|]. destruct rest as [|r rs].
  - cbn [readable]. constructor; [|constructor]. specialize (F cands Hc). rewrite Forall_forall in *. intros s Hs. apply in_map_iff in Hs.
    destruct Hs as (s' & <- & Hs). specialize (F s' Hs). destruct s' as [|c s']; [constructor|]. cbn [firstn]. constructor; [exact (Forall_inv F)|constructor].
  - change (readable (cands :: r :: rs)) with (filter nonempty cands :: readable (r :: rs)). constructor; [apply F; exact Hc|exact IH].
Qed.


Lemma existsb_eq w words : existsb (list_eqb w) words = true <-> In w words.
Proof.
  rewrite existsb_exists. split.
  - intros (x & Hx & E). apply list_eqb_eq in E. subst x. exact Hx.
  - intros H. exists w. split; [exact H|apply list_eqb_eq; reflexivity].
Qed.

Lemma bool_iff (a b : bool) (P : Prop) : (a = true <-> P) -> (b = true <-> P) -> a = b.
Proof. destruct a, b; intros [H1 H2] [H3 H4]; try reflexivity; [symmetry; auto|auto]. Qed.

Lemma disambiguous_exact sort words ps out : is_std_sort (list_ltb Z.ltb) sort -> Forall well_formed words -> ~ In [] words ->
  letters words < 4294967296 -> Forall (Forall (Forall is_char)) ps ->
  exists nodes, make_dictionary sort words = Ok nodes /\
    disambiguous nodes (texts ps) out = Ok (verdict out (first_word words (texts (readable ps)))).
Proof.
  intros Hsort Hwf Hne HB Hps. destruct (dictionary_good sort words Hsort Hwf Hne HB) as (css & t & nodes & Hcs & Ew & Em & Rt & Gt & Hroot & St).
  exists nodes. split; [exact Em|].
  assert (FW : first_word words (texts (readable ps)) = option_map text_of (find (fun w => spellsb (map packed w) t) (choices (readable ps)))).
  { unfold first_word. rewrite choices_texts, find_map. f_equal. apply find_ext. intros w Hw.
    assert (Hwc : Forall is_char w) by (pose proof (choices_chars _ (readable_chars _ Hps)) as H; rewrite Forall_forall in H; apply H; exact Hw).
    apply bool_iff with (In (text_of w) words); [apply existsb_eq|]. rewrite (spellsb_ok _ _ (proj1 Gt)), St, (codes_in css w Hcs Hwc), Ew. reflexivity. }
  destruct ps as [|cands rest].
  - cbn [texts map disambiguous]. cbn [readable texts map first_word choices find].
    unfold first_word. cbn [choices find].
    destruct (existsb (list_eqb []) words) eqn:E; [|destruct nodes; reflexivity]. apply existsb_eq in E. contradiction.
  - destruct nodes as [|e nodes'].
    { subst t. rewrite FW. rewrite (find_ext _ (fun _ => false)), find_false; [reflexivity|]. intros w _. apply spellsb_nil. }
    set (nodes := e :: nodes') in *. set (ps := cands :: rest) in *.
    assert (Ed : disambiguous nodes (texts ps) out =
      ('(lo, hi) <- root_range nodes ;; '(b, out') <- disambiguous_impl nodes lo hi (texts ps) out ;;
       if b : bool then o <- swap_tail (vsize out) out' ;; Ok (true, o) else Ok (false, out'))) by reflexivity.
    rewrite Ed, Hroot. cbn [bind].
    rewrite (impl_ok nodes ps) by (discriminate || assumption). cbn [bind]. rewrite FW.
    destruct (find (fun w => spellsb (map packed w) t) (choices (readable ps))) as [w|]; cbn [answer option_map verdict]; [|reflexivity].
    rewrite swap_tail_ok. cbn [bind]. rewrite rev_involutive. reflexivity.
Qed.

Lemma disambiguous_sound sort words positions out : is_std_sort (list_ltb Z.ltb) sort -> Forall well_formed words -> ~ In [] words ->
  letters words < 4294967296 ->
  exists nodes, make_dictionary sort words = Ok nodes /\
    forall b out', disambiguous nodes positions out = Ok (b, out') ->
      (b = true -> exists w, In w words /\ out' = out ++ w) /\ (b = false -> out' = out).
Proof.
  intros Hsort Hwf Hne HB. destruct (dictionary_good sort words Hsort Hwf Hne HB) as (css & t & nodes & Hcs & Ew & Em & Rt & Gt & Hroot & St).
  exists nodes. split; [exact Em|]. intros b out' E.
  assert (F : disambiguous nodes positions out = Ok (false, out) -> (b = true -> exists w, In w words /\ out' = out ++ w) /\ (b = false -> out' = out)).
  { intros E'. rewrite E' in E. injection E as <- <-. split; [discriminate|reflexivity]. }
  destruct positions as [|cands rest]; [apply F; destruct nodes; reflexivity|].
  destruct nodes as [|e nodes']; [apply F; reflexivity|]. clear F.
  set (nodes := e :: nodes') in *. set (ps := cands :: rest) in *.
  change (disambiguous nodes ps out) with
      ('(lo, hi) <- root_range nodes ;; '(b, out') <- disambiguous_impl nodes lo hi ps out ;;
       if b : bool then o <- swap_tail (vsize out) out' ;; Ok (true, o) else Ok (false, out')) in E.
  rewrite Hroot in E. cbn [bind] in E.
  destruct (disambiguous_impl nodes 0 (0 + vsize t) ps out) as [[b1 out1]| | |] eqn:Ei; try discriminate. cbn [bind] in E.
  pose proof (impl_sound nodes ps 0 t out _ Rt Gt Ei) as S. destruct b1; cbn [sound] in S.
  - destruct S as (cs & Hchars & Sp & ->). rewrite swap_tail_ok, rev_involutive in E. cbn [bind] in E. injection E as <- <-.
    split; [|discriminate]. intros _. exists (text_of cs). split; [|reflexivity]. rewrite Ew. apply codes_in; [exact Hcs|exact Hchars|]. apply St. exact Sp.
  - subst out1. injection E as <- <-. split; [discriminate|reflexivity].
Qed.

(** Candidates given as texts. *)
Lemma well_formed_cands (cands : list (list Z)) : Forall (fun s => well_formed s /\ s <> []) cands ->
  exists css, Forall (Forall is_char) css /\ cands = map text_of css /\ filter nonempty css = css.
Proof.
  induction 1 as [|s cands [(cs & Hcs & ->) Hne] _ (css & H1 & -> & H3)]; [exists []; auto|].
  exists (cs :: css). split; [constructor; assumption|]. split; [reflexivity|]. cbn [filter].
  destruct cs as [|c cs]; [destruct (Hne eq_refl)|]. cbn [nonempty]. rewrite H3. reflexivity.
Qed.
Lemma one_char_cands (cands : list (list Z)) : Forall one_char cands ->
  exists css, Forall (Forall is_char) css /\ cands = map text_of css /\ map (firstn 1) (filter nonempty css) = css.
Proof.
  induction 1 as [|s cands (c & Hc & ->) _ (css & H1 & -> & H3)]; [exists []; auto|].
  exists ([c] :: css). split; [constructor; [constructor; [exact Hc|constructor]|exact H1]|]. split.
  - cbn [map]. unfold text_of at 2. cbn [flat_map]. rewrite app_nil_r. reflexivity.
  - change (map (firstn 1) (filter nonempty ([c] :: css))) with ([c] :: map (firstn 1) (filter nonempty css)). rewrite H3. reflexivity.
Qed.
Lemma positions_chars (positions : list (list (list Z))) :
  Forall (Forall (fun s => well_formed s /\ s <> [])) positions ->
  (forall init cands, positions = init ++ [cands] -> Forall one_char cands) ->
  exists ps, Forall (Forall (Forall is_char)) ps /\ positions = texts ps /\ readable ps = ps.
Proof.
  induction 1 as [|cands rest Hc Hr IH]; intros Hlast; [exists []; auto|].
  destruct rest as [|r rs].
  - destruct (one_char_cands cands (Hlast [] cands eq_refl)) as (css & H1 & -> & H3).
    exists [css]. split; [constructor; [exact H1|constructor]|]. split; [reflexivity|]. cbn [readable]. rewrite H3. reflexivity.
  - destruct IH as (ps & P1 & P2 & P3).
    { intros init c E. apply (Hlast (cands :: init) c). rewrite E. reflexivity. }
    destruct (well_formed_cands cands Hc) as (css & H1 & -> & H3).
    exists (css :: ps). split; [constructor; assumption|]. split; [cbn [texts map]; fold (texts ps); rewrite P2; reflexivity|].
    destruct ps as [|p ps]; [discriminate|]. change (readable (css :: p :: ps)) with (filter nonempty css :: readable (p :: ps)). rewrite H3, P3. reflexivity.
Qed.

Lemma disambiguous_first sort words positions out : is_std_sort (list_ltb Z.ltb) sort -> Forall well_formed words -> ~ In [] words ->
  letters words < 4294967296 ->
  Forall (Forall (fun s => well_formed s /\ s <> [])) positions ->
  (forall init cands, positions = init ++ [cands] -> Forall one_char cands) ->
  exists nodes, make_dictionary sort words = Ok nodes /\
    disambiguous nodes positions out = Ok (verdict out (first_word words positions)).
Proof.
  intros Hsort Hwf Hne HB Hp Hl. destruct (positions_chars positions Hp Hl) as (ps & P1 & -> & P3).
  destruct (disambiguous_exact sort words ps out Hsort Hwf Hne HB P1) as (nodes & E1 & E2). exists nodes. split; [exact E1|]. rewrite E2, P3. reflexivity.
Qed.

Lemma one_char_well_formed s : one_char s -> well_formed s /\ s <> [].
Proof.
  intros (c & Hc & ->). split.
  - exists [c]. split; [constructor; [exact Hc|constructor]|]. unfold text_of. cbn [flat_map]. rewrite app_nil_r. reflexivity.
  - pose proof (encode_length c). intros E. rewrite E in H. cbn in H. lia.
Qed.

Lemma disambiguous_first_single sort words positions out : is_std_sort (list_ltb Z.ltb) sort -> Forall well_formed words -> ~ In [] words ->
  letters words < 4294967296 -> Forall (Forall one_char) positions ->
  exists nodes, make_dictionary sort words = Ok nodes /\
    disambiguous nodes positions out = Ok (verdict out (first_word words positions)).
Proof.
  intros Hsort Hwf Hne HB Hp. apply disambiguous_first; try assumption.
  - apply Forall_impl with (2 := Hp). intros c. apply Forall_impl. apply one_char_well_formed.
  - intros init cands ->. apply Forall_app in Hp. destruct Hp as [_ Hp]. exact (Forall_inv Hp).
Qed.

Lemma last_ligature :
  (run [str "of"] [[str "o"]; [str "ffi"]] [] = Ok (true, str "of") /\
   first_word [str "of"] [[str "o"]; [str "ffi"]] = None) /\
  (run [str "offi"] [[str "o"]; [str "ffi"]] [] = Ok (false, []) /\
   first_word [str "offi"] [[str "o"]; [str "ffi"]] = Some (str "offi")).
Proof. repeat split; vm_compute; reflexivity. Qed.
