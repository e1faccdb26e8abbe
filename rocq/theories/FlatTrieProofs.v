From Verif Require Import Base BaseProofs SortModel SortProofs DatasModel UtfModel UtfSpec UtfProofs DictIoModel DictIoSpec TrieModel TrieSpec TrieProofs.
From Coq Require Import Permutation Sorted.

Section Flatten.
Context (root : list tnode).

(** Where the children of the element after [P] start. *)
Definition start (P : list tnode) : Z := vsize root + vsize (flat_map tkids P).
Definition placed (P : list tnode) (n : tnode) : fnode :=
  mkfn (tvalue n) (u32 (start P - vsize P)) (u32 (vsize (tkids n))) (tterm n).
(** The elements whose positions are set. *)
Definition done (P : list tnode) (es : list fnode) : Prop :=
  List.length es = List.length P /\
  forall X n Y, P = X ++ n :: Y -> nth_error es (List.length X) = Some (placed X n) /\ vsize X < start X.

Lemma snoc_cases {A} (Y : list A) : Y = [] \/ exists Y' y, Y = Y' ++ [y].
Proof. induction Y as [|y Y _] using rev_ind; [left; reflexivity|right; exists Y, y; reflexivity]. Qed.

Lemma done_snoc P es n : done P es -> vsize P < start P -> done (P ++ [n]) (es ++ [placed P n]).
Proof.
  intros [L D] Hs. split; [rewrite !app_length, L; reflexivity|].
  intros X m Y E. destruct (snoc_cases Y) as [->|(Y' & y & ->)].
  - apply app_inj_tail in E. destruct E as [<- <-]. split; [|exact Hs].
    rewrite <- L, nth_error_app2, Nat.sub_diag by lia. reflexivity.
  - change (X ++ m :: Y' ++ [y]) with (X ++ (m :: Y') ++ [y]) in E. rewrite app_assoc in E. apply app_inj_tail in E. destruct E as [E _].
    destruct (D X m Y' E) as [D1 D2]. split; [|exact D2].
    rewrite nth_error_app1; [exact D1|]. rewrite L, E, app_length. cbn [List.length]. lia.
Qed.

Lemma rd_mid {A} (a : list A) x b i : i = vsize a -> rd (a ++ x :: b) i = Ok x.
Proof.
  intros ->. apply rd_ok; unfold vsize; [lia|]. rewrite Nat2Z.id, nth_error_app2, Nat.sub_diag by lia. reflexivity.
Qed.
Lemma upd_mid {A} (a : list A) x b v : upd (a ++ x :: b) (List.length a) v = a ++ v :: b.
Proof. induction a as [|y a IH]; [reflexivity|]. cbn [app List.length upd]. rewrite IH. reflexivity. Qed.
Lemma wr_mid {A} (a : list A) x b i v : i = vsize a -> wr (a ++ x :: b) i v = Ok (a ++ v :: b).
Proof.
  intros ->. rewrite wr_ok.
  - unfold vsize. rewrite Nat2Z.id. rewrite upd_mid. reflexivity.
  - unfold vsize. rewrite app_length. cbn [List.length]. lia.
Qed.

Lemma vsize_map {A B} (f : A -> B) l : vsize (map f l) = vsize l.
Proof. unfold vsize. rewrite map_length. reflexivity. Qed.

Lemma flatten_level_ok A : forall P B es, P ++ A ++ B = root ++ flat_map tkids P -> done P es ->
  exists es', flatten_level (map tkids A) (vsize P) (es ++ map flat_node (A ++ B)) (map tkids B)
      = Ok (vsize (P ++ A), es' ++ map flat_node (B ++ flat_map tkids A), map tkids (B ++ flat_map tkids A)) /\
    done (P ++ A) es' /\
    (P ++ A) ++ (B ++ flat_map tkids A) = root ++ flat_map tkids (P ++ A).
Proof.
  induction A as [|n A IH]; intros P B es E D; cbn [map flatten_level].
  - exists es. cbn [flat_map app]. rewrite !app_nil_r. split; [reflexivity|]. split; [exact D|exact E].
  - set (sz := vsize (es ++ map flat_node ((n :: A) ++ B))).
    assert (Les : vsize es = vsize P) by (unfold vsize; destruct D as [-> _]; reflexivity).
    assert (Esz : sz = start P).
    { unfold sz, start. rewrite <- vsize_app, <- E, !vsize_app, vsize_map, Les, vsize_app. lia. }
    cbn [app map]. rewrite rd_mid by (symmetry; exact Les). cbn [bind].
    rewrite wr_mid by (symmetry; exact Les). cbn [bind].
    assert (Hlt : vsize P < start P).
    { rewrite <- Esz. unfold sz. rewrite vsize_app, vsize_map, vsize_app, vsize_cons, Les. pose proof (vsize_nonneg A). pose proof (vsize_nonneg B). lia. }
    assert (Epl : set_pos (flat_node n) (u32 (sz - vsize P)) = placed P n) by (rewrite Esz; reflexivity).
    rewrite Epl.
    destruct (IH (P ++ [n]) (B ++ tkids n) (es ++ [placed P n])) as (es' & E' & D' & Q').
    + rewrite flat_map_app. cbn [flat_map]. rewrite app_nil_r.
      rewrite (app_assoc root), <- E. rewrite <- !app_assoc. reflexivity.
    + apply done_snoc; assumption.
    + exists es'. split; [|split].
      * replace (P ++ n :: A) with ((P ++ [n]) ++ A) by (rewrite <- app_assoc; reflexivity).
        cbn [flat_map]. rewrite app_assoc. rewrite <- E'.
        replace (vsize P + 1) with (vsize (P ++ [n])) by (rewrite vsize_app; reflexivity).
        destruct (tkids n) as [|k ks].
        -- cbn [app]. rewrite app_nil_r, <- app_assoc. reflexivity.
        -- rewrite !map_app, <- !app_assoc. cbn [app]. rewrite <- !app_assoc. reflexivity.
      * replace (P ++ n :: A) with ((P ++ [n]) ++ A) by (rewrite <- app_assoc; reflexivity). exact D'.
      * replace (P ++ n :: A) with ((P ++ [n]) ++ A) by (rewrite <- app_assoc; reflexivity). cbn [flat_map]. rewrite (app_assoc B). exact Q'.
Qed.

Lemma heights_kids A h : (heights A <= S h)%nat -> (heights (flat_map tkids A) <= h)%nat.
Proof.
  assert (App : forall a b, heights (a ++ b) = Nat.max (heights a) (heights b)).
  { intros a b. unfold heights. induction a as [|x a IHa]; [reflexivity|]. cbn [app fold_right]. rewrite IHa. lia. }
  induction A as [|n A IH]; intros H; [cbn; lia|].
  change (heights (n :: A)) with (Nat.max (height n) (heights A)) in H. cbn [flat_map]. rewrite App.
  assert (height n = S (heights (tkids n))) by (destruct n; reflexivity). lia.
Qed.
Lemma count_kids A : trie_count A = vsize A + trie_count (flat_map tkids A).
Proof.
  induction A as [|n A IH]; [reflexivity|]. cbn [flat_map]. rewrite trie_count_app, vsize_cons.
  change (trie_count (n :: A)) with (node_count n + trie_count A). rewrite node_count_eq. lia.
Qed.

Lemma flatten_levels_ok fuel : forall A P es, P ++ A = root ++ flat_map tkids P -> done P es -> (heights A <= fuel)%nat ->
  exists E es', flatten_levels fuel (map tkids A) (vsize P) (es ++ map flat_node A) = Ok es' /\
    E = root ++ flat_map tkids E /\ done E es' /\ vsize E = vsize P + trie_count A /\ exists Z, E = P ++ Z.
Proof.
  induction fuel as [|fuel IH]; intros A P es E D H.
  - destruct A as [|n A]; [|exfalso; change (heights (n :: A)) with (Nat.max (height n) (heights A)) in H; destruct n; cbn [height] in H; lia].
    exists P, es. cbn [map flatten_levels]. rewrite !app_nil_r in *. split; [reflexivity|]. split; [exact E|]. split; [exact D|]. split; [cbn; lia|exists []; rewrite app_nil_r; reflexivity].
  - destruct A as [|n A].
    { exists P, es. cbn [map flatten_levels]. rewrite !app_nil_r in *. split; [reflexivity|]. split; [exact E|]. split; [exact D|]. split; [cbn; lia|exists []; rewrite app_nil_r; reflexivity]. }
    set (A1 := n :: A) in *.
    assert (Hl : flatten_levels (S fuel) (map tkids A1) (vsize P) (es ++ map flat_node A1) =
      ('(pos', elems', next) <- flatten_level (map tkids A1) (vsize P) (es ++ map flat_node A1) [] ;; flatten_levels fuel next pos' elems')) by reflexivity.
    rewrite Hl. clear Hl.
    destruct (flatten_level_ok A1 P [] es) as (es1 & E1 & D1 & Q1); [rewrite app_nil_r; exact E|exact D|].
    rewrite app_nil_r in E1. cbn [map] in E1. rewrite E1. cbn [bind app].
    destruct (IH (flat_map tkids A1) (P ++ A1) es1 Q1 D1 (heights_kids _ _ H)) as (F & es' & EF & QF & DF & CF & ZZ & EZ).
    exists F, es'. split; [exact EF|]. split; [exact QF|]. split; [exact DF|]. split.
    + rewrite CF, vsize_app, (count_kids A1). lia.
    + exists (A1 ++ ZZ). rewrite app_assoc. exact EZ.
Qed.

End Flatten.

Lemma flatten_ok root : exists E es, flatten root = Ok es /\ E = root ++ flat_map tkids E /\ done root E es /\ vsize E = trie_count root.
Proof.
  unfold flatten. destruct (flatten_levels_ok root (heights root) root [] []) as (E & es & H1 & H2 & H3 & H4 & _).
  - cbn [app flat_map]. rewrite app_nil_r. reflexivity.
  - split; [reflexivity|]. intros X n Y H. destruct X; discriminate.
  - lia.
  - exists E, es. split; [exact H1|]. split; [exact H2|]. split; [exact H3|]. rewrite H4. reflexivity.
Qed.

(** The part of the array starting at [lo] lists the nodes [t]. *)
Inductive rep (nodes : list fnode) : Z -> list tnode -> Prop :=
| Rep lo t : 0 <= lo ->
    (forall k n, nth_error t k = Some n -> exists e, rd nodes (lo + Z.of_nat k) = Ok e /\
      fn_char e = tvalue n /\ fn_term e = tterm n /\ fn_count e = vsize (tkids n) /\
      rep nodes (lo + Z.of_nat k + fn_pos e) (tkids n)) ->
    rep nodes lo t.

Lemma height_kids n t : In n t -> (heights (tkids n) < heights t)%nat.
Proof.
  induction t as [|x t IH]; [intros []|]. change (heights (x :: t)) with (Nat.max (height x) (heights t)).
  intros [->|H]; [|specialize (IH H); lia]. assert (height n = S (heights (tkids n))) by (destruct n; reflexivity). lia.
Qed.

Section Rep.
Context (root E : list tnode) (es : list fnode).
Hypothesis (HE : E = root ++ flat_map tkids E) (HD : done root E es) (HB : vsize E < 4294967296).

Lemma elem_at X n Y : E = X ++ n :: Y -> exists e, rd es (vsize X) = Ok e /\ fn_char e = tvalue n /\ fn_term e = tterm n /\
  fn_count e = vsize (tkids n) /\ vsize X + fn_pos e = start root X /\
  exists W, E = (root ++ flat_map tkids X) ++ tkids n ++ W.
Proof.
  intros EX. destruct HD as [L D]. destruct (D X n Y EX) as [D1 D2].
  assert (EW : E = (root ++ flat_map tkids X) ++ tkids n ++ flat_map tkids Y).
  { rewrite HE at 1. rewrite EX. rewrite flat_map_app. cbn [flat_map]. rewrite <- !app_assoc. reflexivity. }
  exists (placed root X n). split.
  { apply rd_ok; unfold vsize; [lia|]. rewrite Nat2Z.id. exact D1. }
  cbn [placed fn_char fn_term fn_count fn_pos]. split; [reflexivity|]. split; [reflexivity|].
  assert (S : start root X = vsize (root ++ flat_map tkids X)) by (rewrite vsize_app; reflexivity).
  assert (B : start root X + vsize (tkids n) + vsize (flat_map tkids Y) = vsize E).
  { rewrite EW, (vsize_app (root ++ _)), (vsize_app (tkids n)). lia. }
  pose proof (vsize_nonneg (tkids n)). pose proof (vsize_nonneg (flat_map tkids Y)). pose proof (vsize_nonneg X).
  rewrite !u32_small by lia. split; [reflexivity|]. split; [lia|]. eexists. exact EW.
Qed.

Lemma rep_segment h : forall t X Y, (heights t <= h)%nat -> E = X ++ t ++ Y -> rep es (vsize X) t.
Proof.
  induction h as [|h IH]; intros t X Y Hh EX; (constructor; [apply vsize_nonneg|]); intros k n Hk.
  - destruct t as [|m t]; [destruct k; discriminate|]. exfalso. pose proof (height_kids m (m :: t) (or_introl eq_refl)). lia.
  - pose proof (nth_error_split _ _ Hk) as (t1 & t2 & Et & Lk).
    destruct (elem_at (X ++ t1) n (t2 ++ Y)) as (e & Re & C1 & C2 & C3 & C4 & W & EW).
    { rewrite EX, Et. rewrite <- !app_assoc. reflexivity. }
    assert (EP : vsize X + Z.of_nat k = vsize (X ++ t1)) by (rewrite vsize_app; unfold vsize; lia).
    rewrite EP. exists e. split; [exact Re|]. split; [exact C1|]. split; [exact C2|]. split; [exact C3|].
    rewrite C4. unfold start. rewrite <- vsize_app. apply IH with W; [|exact EW].
    pose proof (height_kids n t (nth_error_In _ _ Hk)). lia.
Qed.

Lemma rep_root : rep es 0 root.
Proof. apply (rep_segment (heights root) root [] (flat_map tkids E)); [lia|exact HE]. Qed.

Lemma links : links_inside es.
Proof.
  intros i e Hi _. destruct HD as [L _].
  assert (exists X n Y, E = X ++ n :: Y /\ List.length X = i) as (X & n & Y & EX & LX).
  { assert (i < List.length E)%nat by (rewrite <- L; apply nth_error_Some; congruence).
    destruct (nth_error E i) as [n|] eqn:En; [|apply nth_error_None in En; lia].
    apply nth_error_split in En. destruct En as (X & Y & A & B). exists X, n, Y. split; assumption. }
  destruct (elem_at X n Y EX) as (e' & Re & _ & _ & C3 & C4 & W & EW).
  apply rd_inv in Re. destruct Re as [_ Re]. unfold vsize in Re at 1. rewrite Nat2Z.id, LX, Hi in Re. injection Re as <-.
  assert (vsize es = vsize E) by (unfold vsize; rewrite L; reflexivity).
  assert (vsize E = start root X + vsize (tkids n) + vsize W).
  { rewrite EW. rewrite !vsize_app. unfold start. lia. }
  pose proof (vsize_nonneg W). unfold vsize in *. lia.
Qed.

Lemma root_pos n : (exists r, root = n :: r) -> exists e r, es = e :: r /\ fn_pos e = vsize root.
Proof.
  intros (r & Er). destruct (elem_at [] n (r ++ flat_map tkids E)) as (e & Re & _ & _ & _ & C4 & _).
  { rewrite HE at 1. rewrite Er. reflexivity. }
  apply rd_inv in Re. destruct Re as [_ Re]. destruct es as [|e' es']; [discriminate|]. cbn in Re. injection Re as ->.
  exists e, es'. split; [reflexivity|]. unfold start in C4. cbn in C4. lia.
Qed.
End Rep.

(** The search in a range. *)
Lemma search_child nodes lo t c : rep nodes lo t -> well_ordered t ->
  exists i, range_lower_bound nodes lo (lo + vsize t) c = Ok i /\ lo <= i <= lo + vsize t /\
    ((exists n, In n t /\ tvalue n = c /\ i < lo + vsize t /\ exists e, rd nodes i = Ok e /\ fn_char e = c /\ fn_term e = tterm n /\
       fn_count e = vsize (tkids n) /\ rep nodes (i + fn_pos e) (tkids n)) \/
     ((forall n, In n t -> tvalue n <> c) /\ (i = lo + vsize t \/ (i < lo + vsize t /\ exists e, rd nodes i = Ok e /\ fn_char e <> c)))).
Proof.
  intros R O. inversion R as [? ? Hlo HR]; subst. inversion O as [? Os _]; subst.
  assert (At : forall i, lo <= i < lo + vsize t -> exists n, nth_error t (Z.to_nat (i - lo)) = Some n /\ exists e, rd nodes i = Ok e /\ fn_char e = tvalue n /\ fn_term e = tterm n /\ fn_count e = vsize (tkids n) /\ rep nodes (i + fn_pos e) (tkids n)).
  { intros i Hi. destruct (nth_error t (Z.to_nat (i - lo))) as [n|] eqn:En; [|apply nth_error_None in En; unfold vsize in Hi; lia].
    exists n. split; [reflexivity|]. destruct (HR _ _ En) as (e & Re & H). replace (lo + Z.of_nat (Z.to_nat (i - lo))) with i in * by lia.
    exists e. split; [exact Re|exact H]. }
  assert (Inc : forall (n m : nat) a b, (n < m)%nat -> nth_error t n = Some a -> nth_error t m = Some b -> tvalue a < tvalue b).
  { clear -Os. induction t as [|x t IH]; intros n m a b Hnm Ha Hb; [destruct n; discriminate|].
    cbn [map] in Os. inversion Os as [|? ? S1 F]; subst. destruct m as [|m]; [lia|]. cbn in Hb. destruct n as [|n].
    - cbn in Ha. injection Ha as ->. rewrite Forall_forall in F. apply F. apply in_map. apply nth_error_In in Hb. exact Hb.
    - cbn in Ha. apply (IH S1 n m); [lia|assumption|assumption]. }
  pose proof (vsize_nonneg t) as Ht.
  set (q := fun i => match rd nodes i with Ok e => fn_char e <? c | _ => false end).
  unfold range_lower_bound.
  match goal with |- context [partition_point ?pp _ _] => destruct (partition_point_ok pp q lo (lo + vsize t)) as (i & Ei & Hi & Ql & Qg) end.
  - lia.
  - intros i Hi. destruct (At i Hi) as (n & _ & e & Re & _). unfold q. rewrite Re. reflexivity.
  - intros i j Hi Hij Hj. destruct (At i ltac:(lia)) as (n & Hn & e & Re & Ce & _). destruct (At j ltac:(lia)) as (m & Hm & f & Rf & Cf & _).
    unfold q. rewrite Re, Rf, Ce, Cf. destruct (Z.eq_dec i j) as [Eij|].
    + subst j. assert (n = m) by congruence. subst. auto.
    + pose proof (Inc (Z.to_nat (i - lo)) (Z.to_nat (j - lo)) _ _ ltac:(lia) Hn Hm). rewrite !Z.ltb_lt. lia.
  - exists i. split; [exact Ei|]. split; [exact Hi|].
    assert (Below : forall j n, lo <= j < i -> nth_error t (Z.to_nat (j - lo)) = Some n -> tvalue n < c).
    { intros j n Hj Hn. destruct (At j ltac:(lia)) as (n' & Hn' & e & Re & Ce & _). assert (n' = n) by congruence. subst n'.
      pose proof (Ql j ltac:(lia)) as Q. unfold q in Q. rewrite Re in Q. apply Z.ltb_lt in Q. lia. }
    assert (Idx : forall n, In n t -> exists j, lo <= j < lo + vsize t /\ nth_error t (Z.to_nat (j - lo)) = Some n).
    { intros n Hn. apply In_nth_error in Hn. destruct Hn as [k Hk]. exists (lo + Z.of_nat k).
      pose proof (proj1 (nth_error_Some t k) ltac:(congruence)). unfold vsize. split; [lia|]. replace (Z.to_nat (lo + Z.of_nat k - lo)) with k by lia. exact Hk. }
    destruct (Z.eq_dec i (lo + vsize t)) as [Eend|Nend].
    + right. split; [|left; exact Eend]. intros n Hn E. destruct (Idx n Hn) as (j & Hj & Hjn). pose proof (Below j n ltac:(lia) Hjn). lia.
    + destruct (At i ltac:(lia)) as (n & Hn & e & Re & Ce & Te & Ke & Rk).
      destruct (Z.eq_dec (tvalue n) c) as [Ec|Nc].
      * left. exists n. split; [apply nth_error_In in Hn; exact Hn|]. split; [exact Ec|]. split; [lia|]. exists e. split; [exact Re|]. split; [congruence|]. auto.
      * right. split.
        -- intros m Hm Ec. destruct (Idx m Hm) as (j & Hj & Hjm).
           destruct (Z.lt_trichotomy j i) as [Hlt|[->|Hgt]].
           ++ pose proof (Below j m ltac:(lia) Hjm). lia.
           ++ congruence.
           ++ pose proof (Inc (Z.to_nat (i - lo)) (Z.to_nat (j - lo)) _ _ ltac:(lia) Hn Hjm) as V.
              pose proof (Qg i ltac:(lia)) as Q. unfold q in Q. rewrite Re in Q. apply Z.ltb_ge in Q. lia.
        -- right. split; [lia|]. exists e. split; [exact Re|congruence].
Qed.

Lemma spells_child t n w : well_ordered t -> In n t -> (spells t (tvalue n :: w) <-> (w = [] /\ tterm n = true) \/ spells (tkids n) w).
Proof.
  intros O Hn. inversion O as [? Os _]; subst.
  assert (U : forall m, In m t -> tvalue m = tvalue n -> m = n).
  { clear -Os Hn. induction t as [|x t IH]; [intros m []|]. cbn [map] in Os. inversion Os as [|? ? S1 F]; subst. rewrite Forall_forall in F.
    intros m [<-|Hm] E; destruct Hn as [<-|Hn]; auto.
    - exfalso. pose proof (F _ (in_map tvalue _ _ Hn)). lia.
    - exfalso. pose proof (F _ (in_map tvalue _ _ Hm)). lia. }
  split.
  - inversion 1 as [? c kids Hin|? c b kids w' Hin Hs]; subst.
    + left. split; [reflexivity|]. rewrite <- (U _ Hin eq_refl). reflexivity.
    + right. rewrite <- (U _ Hin eq_refl). exact Hs.
  - destruct n as [c b kids]. cbn [tvalue tterm tkids] in *. intros [[-> ->]|H]; [apply spells_end with kids; exact Hn|apply spells_step with b kids; assumption].
Qed.

Lemma spells_nonempty t : ~ spells t [].
Proof. inversion 1. Qed.

Lemma lookup_ok nodes w : forall lo t, rep nodes lo t -> well_ordered t ->
  exists b, lookup nodes lo (lo + vsize t) w = Ok b /\ (b = true <-> spells t w).
Proof.
  induction w as [|c w IH]; intros lo t R O; cbn [lookup].
  - exists false. split; [reflexivity|]. split; [discriminate|]. intros H. destruct (spells_nonempty _ H).
  - destruct (search_child nodes lo t c R O) as (i & -> & Hi & [(n & Hn & Vn & Hlt & e & Re & Ce & Te & Ke & Rk)|[Hno Hcase]]); cbn [bind].
    + destruct (Z.eqb_spec i (lo + vsize t)); [lia|]. rewrite Re. cbn [bind]. rewrite Ce, Z.eqb_refl.
      assert (Ok' : well_ordered (tkids n)) by (inversion O; auto).
      subst c. destruct w as [|c' w].
      * exists (fn_term e). split; [reflexivity|]. rewrite Te, (spells_child t n [] O Hn).
        split; [left; auto|]. intros [[_ H]|H]; [exact H|destruct (spells_nonempty _ H)].
      * cbn [child_range]. rewrite Ke. destruct (IH _ _ Rk Ok') as (b & Eb & Hb). exists b. split; [exact Eb|].
        rewrite Hb, (spells_child t n (c' :: w) O Hn). split; [right; assumption|]. intros [[H _]|H]; [discriminate|exact H].
    + assert (N : ~ spells t (c :: w)).
      { inversion 1; subst; eapply (Hno (TN c _ _)); eauto. }
      exists false. split; [|split; [discriminate|intros H; destruct (N H)]].
      destruct Hcase as [->|(Hlt & e & Re & Ce)]; [rewrite Z.eqb_refl; reflexivity|].
      destruct (Z.eqb_spec i (lo + vsize t)); [lia|]. rewrite Re. cbn [bind]. destruct (Z.eqb_spec (fn_char e) c); [contradiction|reflexivity].
Qed.

Lemma flat_spells_ok nodes w : forall lo t, rep nodes lo t -> (flat_spells nodes lo (lo + vsize t) w <-> spells t w).
Proof.
  induction w as [|c w IH]; intros lo t R.
  - split; inversion 1.
  - inversion R as [? ? Hlo HR]; subst. split.
    + inversion 1 as [? ? i e Hi Re Te|? ? i e w' Hi Re Hs]; subst.
      * destruct (nth_error t (Z.to_nat (i - lo))) as [[v b kids]|] eqn:En; [|apply nth_error_None in En; unfold vsize in Hi; lia].
        destruct (HR _ _ En) as (e' & Re' & C1 & C2 & _). replace (lo + Z.of_nat (Z.to_nat (i - lo))) with i in * by lia.
        assert (e' = e) by congruence. subst e'. cbn [tvalue tterm] in *. rewrite C1. apply spells_end with kids. apply nth_error_In in En. congruence.
      * destruct (nth_error t (Z.to_nat (i - lo))) as [[v b kids]|] eqn:En; [|apply nth_error_None in En; unfold vsize in Hi; lia].
        destruct (HR _ _ En) as (e' & Re' & C1 & C2 & C3 & C4). replace (lo + Z.of_nat (Z.to_nat (i - lo))) with i in * by lia.
        assert (e' = e) by congruence. subst e'. cbn [tvalue tterm tkids] in *. rewrite C1. apply spells_step with b kids; [apply nth_error_In in En; exact En|].
        rewrite C3 in Hs. apply (IH _ _ C4). exact Hs.
    + assert (K : forall n, In n t -> exists i e, lo <= i < lo + vsize t /\ rd nodes i = Ok e /\ fn_char e = tvalue n /\ fn_term e = tterm n /\ fn_count e = vsize (tkids n) /\ rep nodes (i + fn_pos e) (tkids n)).
      { intros n Hn. apply In_nth_error in Hn. destruct Hn as [k Hk]. destruct (HR _ _ Hk) as (e & H). exists (lo + Z.of_nat k), e.
        pose proof (proj1 (nth_error_Some t k) ltac:(congruence)). unfold vsize at 1. split; [lia|exact H]. }
      inversion 1 as [? ? kids Hin|? ? b kids w' Hin Hs]; subst.
      * destruct (K _ Hin) as (i & e & Hi & Re & C1 & C2 & _). cbn [tvalue tterm] in *. rewrite <- C1. apply fs_end with i; assumption.
      * destruct (K _ Hin) as (i & e & Hi & Re & C1 & C2 & C3 & C4). cbn [tvalue tterm tkids] in *. rewrite <- C1. apply fs_step with i; [assumption|assumption|].
        rewrite C3. apply (IH _ _ C4). exact Hs.
Qed.

(** The array of a trie. *)
Theorem flatten_correct t : trie_count t < 4294967296 ->
  exists nodes, flatten t = Ok nodes /\ vsize nodes = trie_count t /\ links_inside nodes /\ rep nodes 0 t /\
    (t <> [] -> root_range nodes = Ok (0, vsize t)) /\
    (forall w, flat_spells nodes 0 (vsize t) w <-> spells t w) /\
    (well_ordered t -> forall w, exists b, contains nodes w = Ok b /\ (b = true <-> spells t w)).
Proof.
  intros HB. destruct (flatten_ok t) as (E & es & H1 & H2 & H3 & H4).
  assert (HB' : vsize E < 4294967296) by lia.
  pose proof (rep_root t E es H2 H3 HB') as R.
  assert (RR : t <> [] -> root_range es = Ok (0, vsize t)).
  { intros Ht. destruct t as [|n r]; [congruence|]. destruct (root_pos _ E es H2 H3 HB' n) as (e & es' & -> & Hp); [exists r; reflexivity|].
    cbn [root_range]. rewrite Hp. reflexivity. }
  exists es. split; [exact H1|]. split; [unfold vsize in *; destruct H3 as [-> _]; exact H4|]. split; [exact (links t E es H2 H3 HB')|]. split; [exact R|]. split; [exact RR|]. split.
  - intros w. apply (flat_spells_ok es w 0 t R).
  - intros O w. unfold contains. destruct (lookup_ok es w 0 t R O) as (b & Eb & Hb). destruct es as [|e es'] eqn:Ees.
    + exists false. split; [reflexivity|]. split; [discriminate|]. intros Hs.
      assert (E = []) as -> by (destruct H3 as [L _]; destruct E; [reflexivity|discriminate]).
      symmetry in H2. apply app_eq_nil in H2. destruct H2 as [-> _]. inversion Hs; subst; contradiction.
    + rewrite <- Ees in *. rewrite RR; [|].
      * cbn [bind]. rewrite Ees. exists b. split; [|exact Hb]. rewrite <- Ees. exact Eb.
      * intros ->. destruct H3 as [L _]. rewrite Ees in L. cbn in H2, H4. unfold vsize in H4. destruct E; [discriminate|]. cbn in H4. lia.
Qed.

Lemma trie_words words : StronglySorted lex_lt words -> ~ In [] words -> (forall w, In w words -> vsize w < 4294967296) ->
  exists t, make_trie words = Ok t /\ well_ordered t /\ forall w, spells t w <-> In w words.
Proof. intros H1 H2 H3. destruct (make_trie_ok words H1 H2 H3) as (t & A & B & C & _). exists t. auto. Qed.

Lemma flat_trie_words t : trie_count t < 4294967296 ->
  exists nodes, flatten t = Ok nodes /\ vsize nodes = trie_count t /\ links_inside nodes /\
    (forall w, flat_spells nodes 0 (vsize t) w <-> spells t w) /\
    (well_ordered t -> forall w, exists b, contains nodes w = Ok b /\ (b = true <-> spells t w)).
Proof. intros H. destruct (flatten_correct t H) as (nodes & A & B & C & _ & _ & D & E). exists nodes. auto. Qed.
