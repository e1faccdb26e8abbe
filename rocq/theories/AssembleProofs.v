(** The assembly of the text. *)
From Verif Require Import Base BaseProofs SortModel DatasModel UtfSpec TrieModel TrieSpec TrieProofs FlatTrieProofs DictIoModel SpellModel SpellSpec SpellProofs IndexModel IndexProofs GlyphsModel GlyphsProofs3
  FilterSpec FilterProofs AssembleModel AssembleSpec.
From Coq Require Import Sorted.

Fixpoint upto (k : nat) (i : Z) : list Z := match k with O => [] | S k' => i :: upto k' (i + 1) end.
Definition range (i e : Z) : list Z := upto (Z.to_nat (e - i)) i.
Lemma range_nil i : range i i = [].
Proof. unfold range. rewrite Z.sub_diag. reflexivity. Qed.
Lemma range_cons i e : i < e -> range i e = i :: range (i + 1) e.
Proof. intros H. unfold range. replace (Z.to_nat (e - i)) with (S (Z.to_nat (e - (i + 1)))) by lia. reflexivity. Qed.
Lemma upto_In k : forall i j, In j (upto k i) <-> i <= j < i + Z.of_nat k.
Proof. induction k as [|k IH]; intros i j; cbn [upto In]; [lia|]. rewrite IH. lia. Qed.
Lemma range_In i e j : In j (range i e) <-> i <= j < e.
Proof. unfold range. rewrite upto_In. lia. Qed.
Lemma upto_app k k' : forall i, upto (k + k') i = upto k i ++ upto k' (i + Z.of_nat k).
Proof. induction k as [|k IH]; intros i; cbn [upto plus app]; [f_equal; lia|]. rewrite IH. do 3 f_equal. lia. Qed.
Lemma range_app i m e : i <= m <= e -> range i e = range i m ++ range m e.
Proof.
  intros H. unfold range. replace (Z.to_nat (e - i)) with (Z.to_nat (m - i) + Z.to_nat (e - m))%nat by lia. rewrite upto_app. f_equal. f_equal. lia.
Qed.

Lemma range_vsize i e : i <= e -> vsize (range i e) = e - i.
Proof.
  intros H. unfold range. generalize (Z.to_nat (e - i)) (Z2Nat.id (e - i) ltac:(lia)). intros k Hk. rewrite <- Hk. clear.
  revert i. induction k as [|k IH]; intros i; [reflexivity|]. cbn [upto]. rewrite vsize_cons, IH. lia.
Qed.

Section Assembly.
Context (g : glyphs_table) (dict : list fnode) (st : list (list oview)) (amb brks : list Z).
Context (HR : resolvable g st amb) (HB : increasing_breaks (vsize amb) brks) (HN : vsize amb < 4294967296).
Context (spell : list (list (list Z)) -> option (list Z)).
Let n := vsize amb.
Let spaces := brks ++ [n].
Definition L (i : Z) : list oview := list_at st (nth (Z.to_nat i) amb 0).
Definition cand (i : Z) : list (list Z) := character_of g (L i).
Definition sep (i : Z) : bool := separator (cand i).
Definition brk (i : Z) : bool := existsb (Z.eqb i) brks.
Context (HD : forall ps out, ps <> [] -> (forall p, In p ps -> exists i, 0 <= i < n /\ p = cand i) ->
  disambiguous dict ps out = Ok (verdict out (spell ps))).

Lemma n_nonneg : 0 <= n. Proof. apply vsize_nonneg. Qed.
Lemma amb_at i : 0 <= i < n -> In (nth (Z.to_nat i) amb 0) amb /\ rd amb i = Ok (nth (Z.to_nat i) amb 0).
Proof.
  intros H. unfold n, vsize in H. split; [apply nth_In; lia|]. apply rd_ok; [lia|]. apply nth_error_nth'. lia.
Qed.
Lemma list_of_ok i : 0 <= i < n -> list_of st amb i = Ok (L i).
Proof.
  intros H. unfold list_of. destruct (amb_at i H) as [I ->]. cbn [bind]. apply list_at_rd. apply HR, I.
Qed.
Lemma word_ok i v : 0 <= i < n -> In v (L i) -> word_text g (ov_word v) = Ok (text_of_word g (ov_word v)).
Proof.
  intros H I. destruct (amb_at i H) as [I' _]. destruct (proj2 (HR _ I') v I) as [s E]. unfold text_of_word. rewrite E. reflexivity.
Qed.
Lemma group_distinct l : group_words l = distinct_words l.
Proof.
  destruct l as [|v l]; [reflexivity|]. cbn [group_words]. revert v. induction l as [|u l IH]; intros v; [reflexivity|].
  change (distinct_words (v :: u :: l)) with (if ov_word v =? ov_word u then distinct_words (u :: l) else ov_word v :: distinct_words (u :: l)).
  cbn [other_words]. rewrite (Z.eqb_sym (ov_word u)). destruct (Z.eqb_spec (ov_word v) (ov_word u)) as [E|N].
  - rewrite <- IH, E. reflexivity.
  - now rewrite <- IH.
Qed.
Lemma is_mark_mark c : is_mark c = mark c.
Proof.
  unfold is_mark, mark. apply eq_true_iff_eq. cbn -[Z.eqb Z.leb].
  rewrite !orb_true_iff, !andb_true_iff, !Z.eqb_eq, !Z.leb_le. lia.
Qed.
Lemma group_words_In l w : In w (group_words l) -> exists v, In v l /\ ov_word v = w.
Proof.
  assert (O : forall l prev, In w (other_words prev l) -> exists v, In v l /\ ov_word v = w).
  { induction l0 as [|v l0 IH]; intros prev; cbn [other_words]; [intros []|]. destruct (ov_word v =? prev).
    - intros H. destruct (IH _ H) as (x & Hx & E). exists x. split; [right; exact Hx|exact E].
    - intros [<-|H]; [exists v; split; [left; reflexivity|reflexivity]|]. destruct (IH _ H) as (x & Hx & E). exists x. split; [right; exact Hx|exact E]. }
  destruct l as [|v l]; [intros []|]. intros [<-|H]; [exists v; split; [left; reflexivity|reflexivity]|].
  destruct (O _ _ H) as (x & Hx & E). exists x. split; [right; exact Hx|exact E].
Qed.
Lemma cand_cons i v l : L i = v :: l -> cand i = text_of_word g (ov_word v) :: map (text_of_word g) (other_words (ov_word v) l).
Proof. intros E. unfold cand, character_of. rewrite E, <- group_distinct. reflexivity. Qed.
Lemma candidates_ok i : 0 <= i < n -> candidates g (L i) = Ok (cand i).
Proof.
  intros H. unfold candidates, cand, character_of. rewrite <- group_distinct. apply map_res_ok. intros w Hw. destruct (group_words_In _ _ Hw) as (v & Hv & <-). apply (word_ok i v H Hv).
Qed.
Lemma search_ok i : 0 <= i < n -> search_fn g (L i) = Ok (sep i).
Proof.
  intros H. unfold search_fn, sep. destruct (L i) as [|v l] eqn:E; [unfold cand, character_of; rewrite E; reflexivity|].
  rewrite (word_ok i v H) by (rewrite E; left; reflexivity). cbn [bind]. rewrite (cand_cons i v l E). cbn [separator].
  destruct (text_of_word g (ov_word v)) as [|c [|d s]]; rewrite ?is_mark_mark; reflexivity.
Qed.
Lemma append_ok i out : 0 <= i < n -> append_front g out (L i) = Ok (out ++ front (cand i)).
Proof.
  intros H. unfold append_front. destruct (L i) as [|v l] eqn:E; [unfold cand, character_of; rewrite E; cbn; rewrite app_nil_r; reflexivity|].
  rewrite (word_ok i v H) by (rewrite E; left; reflexivity). cbn [bind]. rewrite (cand_cons i v l E). reflexivity.
Qed.

Lemma find_mark_ok want : forall fuel i e, 0 <= i <= e -> e <= n -> e - i < Z.of_nat fuel ->
  exists m, find_mark g st amb fuel want i e = Ok m /\ i <= m <= e /\ (forall j, i <= j < m -> sep j = negb want) /\ (m = e \/ sep m = want).
Proof.
  induction fuel as [|f IH]; intros i e Hi He Hf; [lia|]. cbn [find_mark]. destruct (Z.eqb_spec i e) as [E|E].
  - exists i. split; [reflexivity|]. split; [lia|]. split; [intros; lia|left; exact E].
  - rewrite list_of_ok by lia. cbn [bind]. rewrite search_ok by lia. cbn [bind]. destruct (Bool.eqb (sep i) want) eqn:Q.
    + apply Bool.eqb_prop in Q. exists i. split; [reflexivity|]. split; [lia|]. split; [intros; lia|right; exact Q].
    + destruct (IH (i + 1) e) as (m & Em & Hm & S & D); [lia|lia|lia|]. exists m. split; [exact Em|]. split; [lia|]. split; [|exact D].
      intros j Hj. destruct (Z.eq_dec j i) as [->|Ne]; [|apply S; lia]. destruct (sep i), want; cbn in Q |- *; congruence.
Qed.
Lemma append_all_ok : forall fuel i e out, 0 <= i <= e -> e <= n -> e - i < Z.of_nat fuel ->
  append_all g st amb fuel i e out = Ok (out ++ flat_map (fun j => front (cand j)) (range i e)).
Proof.
  induction fuel as [|f IH]; intros i e out Hi He Hf; [lia|]. cbn [append_all]. destruct (Z.eqb_spec i e) as [E|E].
  - subst e. rewrite range_nil. cbn [flat_map]. rewrite app_nil_r. reflexivity.
  - rewrite list_of_ok by lia. cbn [bind]. rewrite append_ok by lia. cbn [bind]. rewrite IH by lia. rewrite (range_cons i e) by lia. cbn [flat_map]. rewrite <- app_assoc. reflexivity.
Qed.
Lemma positions_ok : forall fuel i e, 0 <= i <= e -> e <= n -> e - i < Z.of_nat fuel ->
  positions_of g st amb fuel i e = Ok (map cand (range i e)).
Proof.
  induction fuel as [|f IH]; intros i e Hi He Hf; [lia|]. cbn [positions_of]. destruct (Z.eqb_spec i e) as [E|E].
  - subst e. rewrite range_nil. reflexivity.
  - rewrite list_of_ok by lia. cbn [bind]. rewrite candidates_ok by lia. cbn [bind]. rewrite IH by lia. cbn [bind]. rewrite (range_cons i e) by lia. reflexivity.
Qed.
Definition empties (l : list Z) : Z := vsize (filter (fun j => match cand j with [] => true | _ => false end) l).
Lemma empties_le l : 0 <= empties l <= vsize l.
Proof.
  unfold empties. split; [apply vsize_nonneg|]. unfold vsize. apply inj_le.
  induction l as [|x l IH]; [apply Nat.le_refl|]. cbn [filter]. destruct (cand x); cbn [List.length]; lia.
Qed.
Lemma empties_app a b : empties (a ++ b) = empties a + empties b.
Proof. unfold empties. rewrite filter_app, vsize_app. reflexivity. Qed.
Lemma append_marks_ok : forall fuel i e out count, 0 <= i <= e -> e <= n -> e - i < Z.of_nat fuel -> 0 <= count -> count + (e - i) <= n ->
  exists m, append_marks g st amb fuel i e out count = Ok (m, out ++ flat_map (fun j => shown (cand j)) (range i m), count + empties (range i m)) /\
    i <= m <= e /\ (forall j, i <= j < m -> sep j = true) /\ (m = e \/ sep m = false).
Proof.
  induction fuel as [|f IH]; intros i e out count Hi He Hf Hc Hcn; [lia|]. cbn [append_marks]. destruct (Z.eqb_spec i e) as [E|E].
  - exists i. rewrite range_nil. cbn [flat_map]. rewrite app_nil_r. change (empties []) with 0. rewrite Z.add_0_r. split; [reflexivity|]. split; [lia|]. split; [intros; lia|left; exact E].
  - rewrite list_of_ok by lia. cbn [bind]. destruct (L i) as [|v l] eqn:EL.
    + assert (Ec : cand i = []) by (unfold cand, character_of; rewrite EL; reflexivity).
      destruct (IH (i + 1) e (out ++ [63]) (u32 (count + 1))) as (m & Em & Hm & S & D); [lia|lia|lia|rewrite u32_small by lia; lia|rewrite u32_small by lia; lia|].
      exists m. rewrite Em, (range_cons i m) by lia. cbn [flat_map]. unfold empties at 2. cbn [filter]. rewrite Ec. cbn [shown].
      change (str "?") with [63]. fold (empties (range (i + 1) m)). rewrite vsize_cons. fold (empties (range (i + 1) m)). rewrite u32_small by lia. rewrite <- app_assoc.
      split; [f_equal; f_equal; lia|]. split; [lia|]. split; [|exact D]. intros j Hj. destruct (Z.eq_dec j i) as [->|Ne]; [unfold sep; rewrite Ec; reflexivity|apply S; lia].
    + rewrite <- EL. rewrite search_ok by lia. cbn [bind].
      assert (Ec : cand i <> []) by (rewrite (cand_cons i v l EL); discriminate).
      destruct (sep i) eqn:Es.
      * rewrite append_ok by lia. cbn [bind].
        destruct (IH (i + 1) e (out ++ front (cand i)) count) as (m & Em & Hm & S & D); [lia|lia|lia|lia|lia|].
        exists m. rewrite Em, (range_cons i m) by lia. cbn [flat_map]. unfold empties at 2. cbn [filter].
        assert (Ef : front (cand i) = shown (cand i)) by (destruct (cand i); [congruence|reflexivity]). rewrite Ef.
        destruct (cand i) eqn:Eci; [congruence|]. fold (empties (range (i + 1) m)). rewrite <- app_assoc.
        split; [reflexivity|]. split; [lia|]. split; [|exact D]. intros j Hj. destruct (Z.eq_dec j i) as [->|Ne]; [exact Es|apply S; lia].
      * exists i. rewrite range_nil. cbn [flat_map]. rewrite app_nil_r. change (empties []) with 0. rewrite Z.add_0_r. split; [reflexivity|]. split; [lia|]. split; [intros; lia|right; exact Es].
Qed.

(** * The rendering *)
Definition part (l : list Z) : list (bool * list (list Z)) := map (fun j => (brk j, cand j)) l.
Lemma render_letters l : forall word rest, (forall j, In j l -> brk j = false /\ sep j = false) ->
  render spell word (part l ++ rest) = render spell (word ++ map cand l) rest.
Proof.
  induction l as [|j l IH]; intros word rest H; [cbn; rewrite app_nil_r; reflexivity|]. cbn [part map app render].
  destruct (H j (or_introl eq_refl)) as [-> S]. unfold sep in S. rewrite S. cbn [app]. fold (part l). rewrite IH by (intros x Hx; apply H; right; exact Hx).
  rewrite <- app_assoc. reflexivity.
Qed.
Lemma render_marks l : forall word rest, l <> [] -> (forall j, In j l -> brk j = false /\ sep j = true) ->
  render spell word (part l ++ rest) = flush spell word ++ flat_map (fun j => shown (cand j)) l ++ render spell [] rest.
Proof.
  induction l as [|j l IH]; intros word rest N H; [congruence|]. cbn [part map app render].
  destruct (H j (or_introl eq_refl)) as [-> S]. unfold sep in S. rewrite S. cbn [app flat_map]. fold (part l).
  rewrite <- app_assoc. do 2 f_equal. destruct l as [|k l]; [reflexivity|]. rewrite IH; [reflexivity|discriminate|intros x Hx; apply H; right; exact Hx].
Qed.
Definition brk_first (i : Z) (e : Z) : list (bool * list (list Z)) := clear_first (part (range i e)).
Lemma clear_range i m : i < m -> clear_first (part (range i m)) = (false, cand i) :: part (range (i + 1) m).
Proof. intros H. rewrite range_cons by exact H. reflexivity. Qed.

(** The effect of clearing the break of the first element. *)
Definition part0 (i m : Z) : list (bool * list (list Z)) := clear_first (part (range i m)).
Lemma render_chunk i m1 m2 rest : i <= m1 <= m2 -> i < m2 -> (forall j, i < j < m2 -> brk j = false) ->
  (forall j, i <= j < m1 -> sep j = false) -> (forall j, m1 <= j < m2 -> sep j = true) ->
  render spell [] (part0 i m2 ++ rest) =
    if m1 =? m2 then render spell (map cand (range i m1)) rest
    else flush spell (map cand (range i m1)) ++ flat_map (fun j => shown (cand j)) (range m1 m2) ++ render spell [] rest.
Proof.
  intros H1 H2 HBr HL HM. unfold part0. rewrite clear_range by exact H2. cbn [app render].
  destruct (Z_lt_dec i m1) as [L1|L1].
  - assert (S : sep i = false) by (apply HL; lia). unfold sep in S. rewrite S. cbn [app].
    rewrite (range_app (i + 1) m1 m2) by lia. unfold part. rewrite map_app, <- app_assoc. fold (part (range (i + 1) m1)) (part (range m1 m2)).
    rewrite render_letters by (intros j Hj; apply range_In in Hj; split; [apply HBr; lia|apply HL; lia]).
    rewrite (range_cons i m1) by lia. cbn [map app]. destruct (Z.eqb_spec m1 m2) as [->|Ne]; [rewrite range_nil; reflexivity|].
    rewrite render_marks; [reflexivity|rewrite range_cons by lia; discriminate|intros j Hj; apply range_In in Hj; split; [apply HBr; lia|apply HM; lia]].
  - assert (m1 = i) by lia. subst m1. assert (S : sep i = true) by (apply HM; lia). unfold sep in S. rewrite S. rewrite range_nil.
    destruct (Z.eqb_spec i m2); [lia|]. cbn [map flush app]. rewrite (range_cons i m2) by lia. cbn [flat_map]. rewrite <- app_assoc. f_equal.
    destruct (Z.eq_dec (i + 1) m2) as [<-|Ne]; [rewrite range_nil; reflexivity|].
    rewrite render_marks; [reflexivity|rewrite range_cons by lia; discriminate|intros j Hj; apply range_In in Hj; split; [apply HBr; lia|apply HM; lia]].
Qed.

(** * The breaks *)
Definition next_break (k i : Z) : Prop := (* break number k is the first after i *)
  exists e, rd spaces k = Ok e /\ i < e <= n /\ (forall j, i < j < e -> brk j = false) /\
    (e < n -> brk e = true /\ exists e', rd spaces (k + 1) = Ok e' /\ e < e').
Lemma brk_In i : brk i = true <-> In i brks.
Proof.
  unfold brk. rewrite existsb_exists. split; [intros (x & Hx & E); apply Z.eqb_eq in E; subst; exact Hx|intros H; exists i; split; [exact H|apply Z.eqb_refl]].
Qed.
Lemma spaces_sorted : StronglySorted Z.lt spaces.
Proof.
  assert (G : forall l x, StronglySorted Z.lt l -> (forall b, In b l -> b < x) -> StronglySorted Z.lt (l ++ [x])).
  { induction l as [|b l IH]; intros x HS HX; cbn [app]; [repeat constructor|]. inversion HS as [|? ? HS' F]; subst.
    constructor; [apply IH; [exact HS'|intros y Hy; apply HX; right; exact Hy]|]. apply Forall_app. split; [exact F|]. constructor; [apply HX; left; reflexivity|constructor]. }
  unfold spaces. apply G; [exact (proj1 HB)|]. intros b Hb. apply (proj2 HB) in Hb. unfold n. lia.
Qed.
Lemma SS_nth l i j a b : StronglySorted Z.lt l -> rd l i = Ok a -> rd l j = Ok b -> i < j -> a < b.
Proof.
  intros HS. revert i j. induction HS as [|x l HS IH F]; intros i j Ra Rb Hij.
  - apply rd_inv in Ra. destruct Ra as [_ En]. destruct (Z.to_nat i); discriminate En.
  - assert (Hi : 0 <= i) by (apply rd_inv in Ra; lia). destruct (Z.eq_dec i 0) as [->|N0].
    + injection Ra as <-. rewrite Forall_forall in F. apply F. apply rd_inv in Rb. destruct Rb as [Rb En].
      replace (Z.to_nat j) with (S (Z.to_nat (j - 1))) in En by lia. cbn [nth_error] in En. apply nth_error_In in En. exact En.
    + apply (IH (i - 1) (j - 1)); [| |lia].
      * apply rd_inv in Ra. destruct Ra as [Ra En]. replace (Z.to_nat i) with (S (Z.to_nat (i - 1))) in En by lia. cbn [nth_error] in En. apply rd_ok; [lia|exact En].
      * apply rd_inv in Rb. destruct Rb as [Rb En]. replace (Z.to_nat j) with (S (Z.to_nat (j - 1))) in En by lia. cbn [nth_error] in En. apply rd_ok; [lia|exact En].
Qed.
Lemma vsize_spaces : vsize spaces = vsize brks + 1.
Proof. unfold spaces. rewrite vsize_app. reflexivity. Qed.
Lemma spaces_at k e : rd spaces k = Ok e -> (k < vsize brks /\ In e brks) \/ (k = vsize brks /\ e = n).
Proof.
  intros H. apply rd_inv in H. destruct H as [Hk E]. destruct (Z_lt_dec k (vsize brks)) as [L1|L1].
  - left. split; [exact L1|]. unfold spaces in E. rewrite nth_error_app1 in E by (unfold vsize in L1; lia). apply nth_error_In in E. exact E.
  - right. assert (k = vsize brks) by (assert (QQ : nth_error spaces (Z.to_nat k) <> None) by congruence; apply nth_error_Some in QQ; pose proof vsize_spaces; unfold vsize in *; lia). split; [assumption|]. subst k. unfold spaces, vsize in E.
    rewrite Nat2Z.id, nth_error_app2, Nat.sub_diag in E by lia. injection E as <-. reflexivity.
Qed.
Lemma spaces_rd k : 0 <= k <= vsize brks -> exists e, rd spaces k = Ok e.
Proof.
  intros H. destruct (nth_error spaces (Z.to_nat k)) as [e|] eqn:E; [exists e; apply rd_ok; [lia|exact E]|]. apply nth_error_None in E. pose proof vsize_spaces. unfold vsize in *. lia.
Qed.
Lemma spaces_In e : In e brks -> exists k, 0 <= k < vsize brks /\ rd spaces k = Ok e.
Proof.
  intros H. apply In_nth_error in H. destruct H as [k E]. assert (k < List.length brks)%nat by (apply nth_error_Some; congruence).
  exists (Z.of_nat k). split; [unfold vsize; lia|]. apply rd_ok; [lia|]. rewrite Nat2Z.id. unfold spaces. rewrite nth_error_app1 by assumption. exact E.
Qed.
Lemma next_after k i e : rd spaces k = Ok e -> i < e -> (forall k' e', rd spaces k' = Ok e' -> k' < k -> e' <= i) -> next_break k i.
Proof.
  intros R Hi Hp. exists e. assert (Hk : 0 <= k) by (apply rd_inv in R; lia). split; [exact R|].
  assert (Hen : e <= n) by (destruct (spaces_at k e R) as [[_ I]|[_ ->]]; [apply (proj2 HB) in I; unfold n; lia|lia]).
  split; [lia|]. split.
  - intros j Hj. destruct (brk j) eqn:Bj; [|reflexivity]. exfalso. apply brk_In in Bj. destruct (spaces_In j Bj) as (k' & Hk' & Rj).
    destruct (Z_lt_dec k' k) as [L1|L1]; [specialize (Hp k' j Rj L1); lia|].
    destruct (Z.eq_dec k' k) as [->|Ne]; [rewrite R in Rj; injection Rj as ->; lia|].
    pose proof (SS_nth _ _ _ _ _ spaces_sorted R Rj ltac:(lia)). lia.
  - intros L1. destruct (spaces_at k e R) as [[Lk I]|[_ ->]]; [|lia]. split; [apply brk_In, I|].
    destruct (spaces_rd (k + 1) ltac:(lia)) as [e' R']. exists e'. split; [exact R'|]. exact (SS_nth _ _ _ _ _ spaces_sorted R R' ltac:(lia)).
Qed.
Lemma next_break_succ k e : rd spaces k = Ok e -> e < n -> next_break (k + 1) e.
Proof.
  intros R L1. assert (Hk : 0 <= k) by (apply rd_inv in R; lia). destruct (spaces_at k e R) as [[Lk I]|[_ ->]]; [|lia].
  destruct (spaces_rd (k + 1) ltac:(lia)) as [e' R']. apply (next_after (k + 1) e e' R' (SS_nth _ _ _ _ _ spaces_sorted R R' ltac:(lia))).
  intros k' x Rx Hk'. destruct (Z.eq_dec k' k) as [->|Ne]; [rewrite R in Rx; injection Rx as ->; lia|].
  pose proof (SS_nth _ _ _ _ _ spaces_sorted Rx R ltac:(lia)). lia.
Qed.

(** * The loop *)
Definition body := (fun '(first, it_space, result, count) =>
       if first =? vsize amb then Ok (inr (result, count))
       else
         e <- break_at amb spaces it_space ;;
         middle <- find_mark g st amb (S (List.length amb)) true first e ;;
         ps <- positions_of g st amb (S (List.length amb)) first middle ;;
         '(found, result) <- disambiguous dict ps result ;;
         result <- (if found : bool then Ok result else append_all g st amb (S (List.length amb)) first middle result) ;;
         '(middle, result, count) <- append_marks g st amb (S (List.length amb)) middle e result count ;;
         if (middle =? e) && negb (e =? vsize amb) then Ok (inl (middle, it_space + 1, result ++ [32], count))
         else Ok (inl (middle, it_space, result, count))) : Z * Z * list Z * Z -> res (Z * Z * list Z * Z + list Z * Z).

Lemma flat_map_map {A B C} (f : B -> list C) (h : A -> B) l : flat_map f (map h l) = flat_map (fun x => f (h x)) l.
Proof. induction l as [|x l IH]; cbn [map flat_map]; [reflexivity|rewrite IH; reflexivity]. Qed.
Lemma fuel_ok i e : 0 <= i <= e -> e <= n -> e - i < Z.of_nat (S (List.length amb)).
Proof. unfold n, vsize. lia. Qed.

Lemma body_ok i k out count : 0 <= i < n -> next_break k i -> 0 <= count <= i ->
  exists m k' out', body (i, k, out, count) = Ok (inl (m, k', out', count + empties (range i m))) /\ i < m <= n /\ (m < n -> next_break k' m) /\
    out' ++ render spell [] (part0 m n) = out ++ render spell [] (part0 i n).
Proof.
  intros Hi (e & Re & He & Hbr & Hlast) Hc. unfold body. fold n. destruct (Z.eqb_spec i n); [lia|]. unfold break_at. rewrite Re. cbn [bind]. fold n.
  rewrite (proj2 (Z.leb_le e n)) by lia. cbn [bind].
  destruct (find_mark_ok true (S (List.length amb)) i e) as (m1 & -> & Hm1 & S1 & D1); [lia|lia|apply fuel_ok; lia|]. cbn [bind].
  rewrite positions_ok by (try apply fuel_ok; lia). cbn [bind].
  assert (EX : exists found r1, disambiguous dict (map cand (range i m1)) out = Ok (found, r1) /\
     (if found : bool then Ok r1 else append_all g st amb (S (List.length amb)) i m1 r1) = Ok (out ++ flush spell (map cand (range i m1)))).
  { destruct (Z.eq_dec i m1) as [<-|Ne].
    - rewrite range_nil. cbn [map]. exists false, out. split; [destruct dict; reflexivity|].
      rewrite append_all_ok by (try apply fuel_ok; lia). rewrite range_nil. reflexivity.
    - assert (NN : map cand (range i m1) <> []) by (rewrite range_cons by lia; discriminate).
      rewrite HD; [|exact NN|intros p Hp; apply in_map_iff in Hp; destruct Hp as (j & <- & Hj); apply range_In in Hj; exists j; split; [lia|reflexivity]].
      assert (EF : flush spell (map cand (range i m1)) = match spell (map cand (range i m1)) with Some w => w | None => flat_map front (map cand (range i m1)) end)
        by (destruct (map cand (range i m1)); [congruence|reflexivity]).
      rewrite EF. destruct (spell (map cand (range i m1))) as [w|]; cbn [verdict]; eexists; eexists; (split; [reflexivity|]); [reflexivity|].
      rewrite append_all_ok by (try apply fuel_ok; lia). rewrite flat_map_map. reflexivity. }
  destruct EX as (found & r1 & -> & E2). cbn [bind]. rewrite E2. cbn [bind].
  destruct (append_marks_ok (S (List.length amb)) m1 e (out ++ flush spell (map cand (range i m1))) count) as (m2 & -> & Hm2 & S2 & D2);
    [lia|lia|apply fuel_ok; lia|lia|lia|]. cbn [bind].
  assert (Pm : i < m2).
  { destruct (Z.eq_dec m1 i) as [E1|]; [|lia]. subst m1. destruct (Z.eq_dec m2 i) as [E2'|]; [|lia]. subst m2. exfalso. destruct D1 as [D1|D1]; [lia|]. destruct D2 as [D2|D2]; [lia|]. congruence. }
  assert (EM : empties (range m1 m2) = empties (range i m2)).
  { rewrite (range_app i m1 m2) by lia. rewrite empties_app. assert (Z0 : forall l, (forall j, In j l -> sep j = false) -> empties l = 0).
    { induction l as [|j l IH]; intros H; [reflexivity|]. unfold empties in *. cbn [filter]. assert (Sj := H j (or_introl eq_refl)). unfold sep in Sj.
      destruct (cand j); [discriminate Sj|]. apply IH. intros x Hx. apply H. right. exact Hx. }
    rewrite (Z0 (range i m1)); [lia|]. intros j Hj. apply range_In in Hj. rewrite S1 by lia. reflexivity. }
  rewrite EM. pose proof (Z.eqb_spec m2 e) as B2. pose proof (Z.eqb_spec e n) as B3. fold n.
  assert (SB : forall j, i <= j < m1 -> sep j = false) by (intros j Hj; rewrite S1 by lia; reflexivity).
  assert (Hbr' : forall j, i < j < m2 -> brk j = false) by (intros j Hj; apply Hbr; lia).
  assert (SPL : m2 < n -> part0 i n = part0 i m2 ++ part (range m2 n)).
  { intros L1. unfold part0. rewrite (range_app i m2 n) by lia. rewrite (range_cons i m2) by lia. unfold part. rewrite map_app. reflexivity. }
  destruct B2 as [B2|B2]; cbn [andb].
  - subst m2. destruct B3 as [B3|B3]; cbn [negb].
    + exists e, k. eexists. split; [reflexivity|]. split; [lia|]. split; [lia|]. rewrite B3. unfold part0 at 1. rewrite range_nil. cbn [part map clear_first render flush]. rewrite app_nil_r.
      rewrite <- B3. rewrite <- (app_nil_r (part0 i e)), (render_chunk i m1 e) by (assumption || lia).
      destruct (Z.eqb_spec m1 e) as [E1|E1]; [subst m1; rewrite range_nil; cbn [flat_map render]; rewrite app_nil_r; reflexivity|].
      cbn [render flush]. rewrite app_nil_r, <- app_assoc. reflexivity.
    + exists e, (k + 1). eexists. split; [reflexivity|]. split; [lia|]. split; [intros L1; eapply next_break_succ; [exact Re|exact L1]|].
      rewrite SPL by lia. rewrite (render_chunk i m1 e) by (assumption || lia). destruct (Hlast ltac:(lia)) as [Be _].
      assert (RN : forall word, render spell word (part (range e n)) = flush spell word ++ str " " ++ render spell [] (part0 e n)).
      { intros word. unfold part0. rewrite (range_cons e n) by lia. cbn [part map clear_first render]. rewrite Be. cbn [app]. rewrite <- app_assoc. reflexivity. }
      destruct (Z.eqb_spec m1 e) as [E1|E1].
      * subst m1. rewrite range_nil. cbn [flat_map]. rewrite RN, !app_nil_r, <- !app_assoc. reflexivity.
      * rewrite RN. cbn [flush app]. rewrite <- !app_assoc. reflexivity.
  - destruct D2 as [D2|D2]; [contradiction|]. exists m2, k. eexists. split; [reflexivity|]. split; [lia|].
    assert (NB : next_break k m2). { exists e. split; [exact Re|]. split; [lia|]. split; [intros j Hj; apply Hbr; lia|exact Hlast]. }
    split; [intros _; exact NB|]. rewrite SPL by lia. rewrite (render_chunk i m1 m2) by (assumption || lia).
    assert (E1 : m1 <> m2). { intros ->. destruct D1 as [D1|D1]; [lia|congruence]. }
    destruct (Z.eqb_spec m1 m2); [contradiction|].
    assert (PE : part0 m2 n = part (range m2 n)). { unfold part0. rewrite (range_cons m2 n) by lia. cbn [part map clear_first]. rewrite (Hbr m2 ltac:(lia)). reflexivity. }
    rewrite PE, <- !app_assoc. reflexivity.
Qed.

Lemma empties_range i m e : i <= m <= e -> empties (range i e) = empties (range i m) + empties (range m e).
Proof. intros H. rewrite (range_app i m e) by exact H. apply empties_app. Qed.
Lemma loop_ok : forall fuel i k out count, 0 <= i <= n -> (i < n -> next_break k i) -> 0 <= count <= i -> n - i < Z.of_nat fuel ->
  loop fuel body (i, k, out, count) = Ok (out ++ render spell [] (part0 i n), count + empties (range i n)).
Proof.
  induction fuel as [|f IH]; intros i k out count Hi Hk Hc Hf; [lia|]. cbn [loop]. destruct (Z.eq_dec i n) as [E|E].
  - subst i. unfold body at 1. fold n. rewrite Z.eqb_refl. unfold part0. rewrite range_nil. cbn. rewrite app_nil_r, Z.add_0_r. reflexivity.
  - destruct (body_ok i k out count) as (m & k' & out' & -> & Hm & Hk' & Er); [lia|apply Hk; lia|lia|].
    assert (Le : empties (range i m) <= m - i) by (rewrite <- range_vsize by lia; apply empties_le). pose proof (proj1 (empties_le (range i m))).
    rewrite IH by (assumption || lia). rewrite Er. rewrite (empties_range i m n) by lia. rewrite Z.add_assoc. reflexivity.
Qed.

Lemma assemble_loop : exists m, 0 <= m <= n /\ (forall j, 0 <= j < m -> sep j = true /\ brk j = false) /\ (m < n -> brk m = true \/ sep m = false) /\
  assemble g dict st amb spaces = Ok (flat_map (fun j => front (cand j)) (range 0 m) ++ render spell [] (part0 m n), empties (range m n)).
Proof.
  pose proof n_nonneg as Hn. destruct (spaces_rd 0 ltac:(pose proof (vsize_nonneg brks); lia)) as [e0 R0].
  assert (He0 : 0 <= e0 <= n) by (destruct (spaces_at 0 e0 R0) as [[_ I]|[_ ->]]; [apply (proj2 HB) in I; unfold n; lia|lia]).
  unfold assemble. unfold break_at at 1. rewrite R0. cbn [bind]. fold n. rewrite (proj2 (Z.leb_le e0 n)) by lia. cbn [bind].
  destruct (find_mark_ok false (S (List.length amb)) 0 e0) as (m & -> & Hm & S1 & D1); [lia|lia|apply fuel_ok; lia|]. cbn [bind].
  rewrite append_all_ok by (try apply fuel_ok; lia). cbn [bind].
  assert (BF : forall j, 0 <= j < e0 -> brk j = false).
  { intros j Hj. destruct (brk j) eqn:Bj; [|reflexivity]. exfalso. apply brk_In in Bj. destruct (spaces_In j Bj) as (k' & Hk' & Rj).
    destruct (Z.eq_dec k' 0) as [->|Ne]; [rewrite R0 in Rj; injection Rj as ->; lia|]. pose proof (SS_nth _ _ _ _ _ spaces_sorted R0 Rj ltac:(lia)). lia. }
  exists m. split; [lia|]. split; [intros j Hj; split; [rewrite S1 by lia; reflexivity|apply BF; lia]|].
  assert (Be : e0 < n -> brk e0 = true) by (intros L1; destruct (spaces_at 0 e0 R0) as [[_ I]|[_ ->]]; [apply brk_In, I|lia]).
  split; [intros L1; destruct D1 as [->|D1]; [left; apply Be, L1|right; exact D1]|].
  change (loop (S (S (List.length amb))) _ _) with (loop (S (S (List.length amb))) body (m, if m =? e0 then 1 else 0, flat_map (fun j => front (cand j)) (range 0 m), 0)).
  rewrite loop_ok; [reflexivity|lia| |lia|unfold n, vsize; lia]. intros L1. destruct (Z.eqb_spec m e0) as [->|Ne].
  - apply (next_break_succ 0 e0 R0 L1).
  - apply (next_after 0 m e0 R0); [lia|]. intros k' e' R' Hk'. apply rd_inv in R'. lia.
Qed.
End Assembly.

(** * The statement on lines *)
Lemma combine_upto (amb : list Z) : forall i k, k = List.length amb ->
  combine (upto k i) amb = map (fun j => (j, nth (Z.to_nat (j - i)) amb 0)) (upto k i).
Proof.
  induction amb as [|r amb IH]; intros i k ->; [reflexivity|]. cbn [List.length upto combine map]. rewrite Z.sub_diag. cbn [Z.to_nat nth]. f_equal.
  rewrite (IH (i + 1) _ eq_refl). apply map_ext_in. intros j Hj. apply upto_In in Hj. f_equal.
  replace (Z.to_nat (j - i)) with (S (Z.to_nat (j - (i + 1)))) by lia. reflexivity.
Qed.
Lemma zrange_upto k : zrange (Z.of_nat k) = upto k 0.
Proof.
  unfold zrange. rewrite Nat2Z.id. assert (G : forall k i, map Z.of_nat (seq i k) = upto k (Z.of_nat i)).
  { clear. induction k as [|k IH]; intros i; [reflexivity|]. cbn [seq map upto]. rewrite IH. do 2 f_equal. lia. }
  exact (G k O).
Qed.
Lemma line_of_part g st amb brks : line_of g st amb brks = part g st amb brks (range 0 (vsize amb)).
Proof.
  unfold line_of, part, range, vsize. rewrite Z.sub_0_r, Nat2Z.id, zrange_upto, combine_upto by reflexivity. rewrite map_map. apply map_ext. intros j.
  rewrite Z.sub_0_r. reflexivity.
Qed.
Lemma leading_part g st amb brks e : forall k i m, i + Z.of_nat k = m -> m <= e -> (forall j, i <= j < m -> sep g st amb j = true /\ brk brks j = false) ->
  (m < e -> brk brks m = true \/ sep g st amb m = false) -> leading (part g st amb brks (range i e)) = k.
Proof.
  induction k as [|k IH]; intros i m Hm He H D.
  - assert (i = m) by lia. subst i. destruct (Z.eq_dec m e) as [->|Ne]; [rewrite range_nil; reflexivity|]. rewrite range_cons by lia. cbn [part map leading].
    destruct (D ltac:(lia)) as [->|E]; [reflexivity|]. unfold sep in E. destruct (brk brks m); [reflexivity|]. rewrite E. reflexivity.
  - rewrite range_cons by lia. cbn [part map leading]. destruct (H i ltac:(lia)) as [E ->]. unfold sep in E. rewrite E. f_equal. apply (IH (i + 1) m); [lia|exact He|intros j Hj; apply H; lia|exact D].
Qed.
Lemma firstn_skipn_part {A} (f : Z -> A) m n : 0 <= m <= n ->
  firstn (Z.to_nat m) (map f (range 0 n)) = map f (range 0 m) /\ skipn (Z.to_nat m) (map f (range 0 n)) = map f (range m n).
Proof.
  intros H. rewrite (range_app 0 m n) by lia. rewrite map_app. assert (E : List.length (map f (range 0 m)) = Z.to_nat m).
  { rewrite map_length. pose proof (range_vsize 0 m ltac:(lia)) as Q. unfold vsize in Q. lia. }
  rewrite <- E. split; [rewrite firstn_app, Nat.sub_diag, firstn_all; cbn [firstn]; apply app_nil_r|rewrite skipn_app, Nat.sub_diag, skipn_all; reflexivity].
Qed.
Lemma unknown_part g st amb brks l : unknown (part g st amb brks l) = empties g st amb l.
Proof.
  unfold unknown, empties, part, vsize. f_equal. induction l as [|j l IH]; [reflexivity|]. cbn [map filter snd]. destruct (cand g st amb j); cbn [List.length]; rewrite ?IH; reflexivity.
Qed.

Definition spelled_by (dict : list fnode) (line : list (bool * list (list Z))) (spell : list (list (list Z)) -> option (list Z)) : Prop :=
  forall ps out, ps <> [] -> (forall p, In p ps -> In p (map snd line)) -> disambiguous dict ps out = Ok (verdict out (spell ps)).
Theorem assemble_exact g dict st amb brks spell :
  resolvable g st amb -> increasing_breaks (vsize amb) brks -> vsize amb < 4294967296 ->
  let line := line_of g st amb brks in
  spelled_by dict line spell ->
  let k := leading line in
  assemble g dict st amb (brks ++ [vsize amb]) =
    Ok (flat_map (fun p => front (snd p)) (firstn k line) ++ render spell [] (clear_first (skipn k line)), unknown (skipn k line)).
Proof.
  intros HR HB HN line HD k. unfold k, line in *. rewrite line_of_part in *.
  destruct (assemble_loop g dict st amb brks HR HB HN spell) as (m & Hm & Hpre & Hend & E).
  { intros ps out N P. apply HD; [exact N|]. intros p Hp. destruct (P p Hp) as (i & Hi & ->). unfold part. rewrite map_map. apply in_map_iff. exists i. split; [reflexivity|]. apply range_In. lia. }
  rewrite E. clear E. rewrite (leading_part g st amb brks (vsize amb) (Z.to_nat m) 0 m) by (try lia; assumption).
  unfold part at 1 2 3. destruct (firstn_skipn_part (fun j => (brk brks j, cand g st amb j)) m (vsize amb) ltac:(lia)) as [-> ->].
  fold (part g st amb brks (range 0 m)) (part g st amb brks (range m (vsize amb))). rewrite unknown_part. unfold part at 1. rewrite flat_map_map. reflexivity.
Qed.

Lemma render_plain line : forall word, render (fun _ => None) word line = flat_map front word ++ plain line.
Proof.
  assert (F : forall word, flush (fun _ => None) word = flat_map front word) by (intros [|c w]; reflexivity).
  induction line as [|[b c] line IH]; intros word; cbn [render]; [rewrite F; cbn; rewrite app_nil_r; reflexivity|].
  assert (P : plain ((b, c) :: line) = ((if b then str " " else []) ++ shown c) ++ plain line) by reflexivity. rewrite P.
  assert (SH : separator c = false -> front c = shown c) by (destruct c; [discriminate|reflexivity]).
  destruct b; destruct (separator c) eqn:Es; rewrite ?F, ?IH; cbn [flat_map app]; rewrite <- ?app_assoc; try reflexivity.
  - rewrite SH by reflexivity. reflexivity.
  - rewrite flat_map_app. cbn [flat_map]. rewrite app_nil_r, SH, <- app_assoc by reflexivity. reflexivity.
Qed.
Theorem assemble_plain g st amb brks :
  resolvable g st amb -> increasing_breaks (vsize amb) brks -> vsize amb < 4294967296 ->
  let line := line_of g st amb brks in
  let k := leading line in
  assemble g [] st amb (brks ++ [vsize amb]) =
    Ok (flat_map (fun p => front (snd p)) (firstn k line) ++ plain (clear_first (skipn k line)), unknown (skipn k line)).
Proof.
  intros HR HB HN line k. unfold k, line. rewrite (assemble_exact g [] st amb brks (fun _ => None) HR HB HN); [rewrite render_plain; reflexivity|].
  intros ps out N P. destruct ps; [congruence|reflexivity].
Qed.
Theorem assemble_no_break g st amb brks :
  resolvable g st amb -> increasing_breaks (vsize amb) brks -> vsize amb < 4294967296 ->
  let line := line_of g st amb brks in
  let k := leading line in
  (forall c rest, skipn k line <> (true, c) :: rest) ->
  assemble g [] st amb (brks ++ [vsize amb]) =
    Ok (flat_map (fun p => front (snd p)) (firstn k line) ++ plain (skipn k line), unknown (skipn k line)).
Proof.
  intros HR HB HN line k HK. unfold k, line in *. rewrite assemble_plain by assumption. do 3 f_equal. destruct (skipn _ _) as [|[[|] c] rest]; [reflexivity| |reflexivity].
  destruct (HK c rest eq_refl).
Qed.
Theorem assemble_dictionary sort words nodes g st amb brks :
  is_std_sort (list_ltb Z.ltb) sort -> Forall well_formed words -> ~ In [] words -> letters words < 4294967296 -> make_dictionary sort words = Ok nodes ->
  resolvable g st amb -> increasing_breaks (vsize amb) brks -> vsize amb < 4294967296 ->
  let line := line_of g st amb brks in
  Forall (fun p => Forall one_char (snd p)) line ->
  let k := leading line in
  assemble g nodes st amb (brks ++ [vsize amb]) =
    Ok (flat_map (fun p => front (snd p)) (firstn k line) ++ render (SpellSpec.first_word words) [] (clear_first (skipn k line)), unknown (skipn k line)).
Proof.
  intros Hsort Hwf Hne HL HM HR HB HN line HC k. apply assemble_exact; try assumption. intros ps out N P.
  destruct (disambiguous_first_single sort words ps out Hsort Hwf Hne HL) as (nodes' & E1 & E2).
  - apply Forall_forall. intros p Hp. specialize (P p Hp). apply in_map_iff in P. destruct P as (q & <- & Hq). rewrite Forall_forall in HC. exact (HC q Hq).
  - rewrite HM in E1. injection E1 as <-. exact E2.
Qed.
Theorem assemble_unknown g st amb brks :
  resolvable g st amb -> increasing_breaks (vsize amb) brks -> vsize amb < 4294967296 ->
  let line := line_of g st amb brks in
  Forall (fun p => snd p <> []) (firstn (leading line) line) ->
  exists text, assemble g [] st amb (brks ++ [vsize amb]) = Ok (text, unknown line) /\
    exists line', map snd line' = map snd line /\ text = plain line'.
Proof.
  intros HR HB HN line HF. rewrite assemble_plain by assumption. fold line. set (k := leading line) in *.
  assert (EU : unknown (skipn k line) = unknown line).
  { rewrite <- (firstn_skipn k line) at 2. unfold unknown. rewrite filter_app, vsize_app.
    assert (Z0 : forall l : list (bool * list (list Z)), Forall (fun p => snd p <> []) l -> filter (fun p => match snd p with [] => true | _ => false end) l = []).
    { induction 1 as [|p l Hp Hl IH]; [reflexivity|]. cbn [filter]. destruct (snd p); [congruence|exact IH]. }
    rewrite (Z0 _ HF). reflexivity. }
  rewrite EU. eexists. split; [reflexivity|].
  exists (map (fun p => (false, snd p)) (firstn k line) ++ clear_first (skipn k line)). split.
  - rewrite map_app, map_map. cbn [snd]. rewrite <- (firstn_skipn k line) at 3. rewrite map_app. f_equal. destruct (skipn k line) as [|[b c] r]; reflexivity.
  - unfold plain. rewrite flat_map_app, flat_map_map. f_equal.
    induction HF as [|p l Hp Hl IH]; [reflexivity|]. cbn [flat_map app]. rewrite IH. f_equal. destruct (snd p); [congruence|reflexivity].
Qed.
