(** The block of words. *)
From Verif Require Import Base BaseProofs ProofTools SortModel SortProofs DatasModel StreamModel StreamProofs
  GlyphIoModel GlyphIoSpec GlyphIoProofs TrieModel TrieSpec TrieProofs FlatTrieProofs DictionaryProofs
  IndexModel IndexProofs GlyphsModel GlyphsSpec GlyphsProofs.
From Coq Require Import Sorted Permutation.

Notation names := (list (list Z * Z)) (only parsing).
Definition width (w : list Z) : Z := cells (vsize w) + 1.
Definition total (m : names) : Z := fold_right (fun p n => width (fst p) + n) 0 m.
Fixpoint offs (m : names) (w : list Z) : Z :=
  match m with [] => 0 | (k, _) :: m' => if list_eqb k w then 0 else width k + offs m' w end.

Lemma width_pos w : 1 <= width w.
Proof. unfold width, cells. pose proof (vsize_nonneg w). lia. Qed.
Lemma total_nonneg m : 0 <= total m.
Proof. induction m as [|p m IH]; [apply Z.le_refl|]. cbn [total fold_right]. fold (total m). pose proof (width_pos (fst p)). lia. Qed.
Lemma total_app a b : total (a ++ b) = total a + total b.
Proof. induction a as [|p a IH]; [reflexivity|]. cbn [app total fold_right]. fold (total (a ++ b)) (total a). lia. Qed.
Lemma total_cons w i m : total ((w, i) :: m) = width w + total m.
Proof. reflexivity. Qed.
Lemma offs_mid a w i b : ~ In w (keys a) -> offs (a ++ (w, i) :: b) w = total a.
Proof.
  induction a as [|[k j] a IH]; intros N.
  - cbn. rewrite (proj2 (list_eqb_eq w w) eq_refl). reflexivity.
  - cbn [app offs]. destruct (list_eqb k w) eqn:E.
    + apply list_eqb_eq in E. subst. exfalso. apply N. left. reflexivity.
    + rewrite IH by (intros H; apply N; right; exact H). reflexivity.
Qed.

Lemma word_offsets_ok m : forall sz R, NoDup (keys m) -> NoDup (ids m) -> (forall i, In i (ids m) -> 0 <= i < vsize R) ->
  0 <= sz -> sz + total m < 4294967296 ->
  exists R', word_offsets m sz R = Ok (sz + total m, R') /\ List.length R' = List.length R /\
    (forall w id, In (w, id) m -> rd R' id = Ok (sz + offs m w)) /\
    (forall i, ~ In i (ids m) -> rd R' i = rd R i).
Proof.
  induction m as [|[w id] m IH]; intros sz R NK NI HI Hs HT.
  - exists R. cbn. rewrite Z.add_0_r. split; [reflexivity|]. split; [reflexivity|]. split; [tauto|auto].
  - cbn [keys ids map fst snd] in NK, NI. fold (keys m) in NK. fold (ids m) in NI. rewrite total_cons in HT |- *.
    pose proof (total_nonneg m). pose proof (width_pos w).
    cbn [word_offsets]. assert (Hid : 0 <= id < vsize R) by (apply HI; left; reflexivity).
    rewrite wr_ok by (unfold vsize in Hid; exact Hid). cbn [bind]. fold (width w). rewrite u32_small by lia.
    inversion NK as [|? ? N1 N2]; subst. inversion NI as [|? ? N3 N4]; subst.
    assert (LU : forall v, List.length (upd R (Z.to_nat id) v) = List.length R)
      by (intros v; apply upd_length).
    destruct (IH (sz + width w) (upd R (Z.to_nat id) sz) N2 N4) as (R' & -> & L & V & O); [|lia|lia|].
    + intros i Hi. unfold vsize. rewrite LU. fold (vsize R). apply HI. right. exact Hi.
    + exists R'. split; [f_equal; f_equal; lia|]. split; [rewrite L; apply LU|]. split.
      * intros x j [E|Hx].
        -- injection E as <- <-. rewrite O by exact N3. cbn [offs]. rewrite (proj2 (list_eqb_eq w w) eq_refl).
           apply rd_ok; [lia|]. rewrite Z.add_0_r. apply upd_nth_same. unfold vsize in Hid. lia.
        -- rewrite (V x j Hx). cbn [offs]. destruct (list_eqb w x) eqn:E; [|f_equal; lia].
           apply list_eqb_eq in E. subst x. exfalso. apply N1. exact (in_map fst _ _ Hx).
      * intros i Hi. rewrite O by (intros X; apply Hi; right; exact X).
        assert (i <> id) by (intros ->; apply Hi; left; reflexivity).
        unfold rd. destruct (i <? 0) eqn:E; [reflexivity|]. rewrite upd_nth_other; [reflexivity|]. lia.
Qed.

(** The bytes of a word. *)
Definition pad (w : list Z) : list (option Z) :=
  if vsize w mod 4 =? 0 then [] else Some 0 :: repeat None (Z.to_nat (3 - vsize w mod 4)).
Definition slot (w : list Z) : list (option Z) := map Some (le_bytes (vsize w)) ++ map Some w ++ pad w.
Definition image_of (m : names) : list (option Z) := flat_map (fun p => slot (fst p)) m.
Fixpoint good_end (m : names) : bool :=
  match m with
  | [] => true
  | p :: m' => match m' with [] => negb (vsize (fst p) mod 4 =? 0) | _ => good_end m' end
  end.

Lemma slot_size w : vsize (slot w) = 4 * width w.
Proof.
  unfold slot. rewrite !vsize_app, !vsize_map. change (vsize (le_bytes (vsize w))) with 4. unfold pad, width, cells.
  pose proof (vsize_nonneg w). destruct (Z.eqb_spec (vsize w mod 4) 0).
  - change (vsize []) with 0. lia.
  - rewrite vsize_cons. unfold vsize at 2. rewrite repeat_length. lia.
Qed.
Lemma image_size m : vsize (image_of m) = 4 * total m.
Proof.
  induction m as [|[w i] m IH]; [reflexivity|]. unfold image_of. cbn [flat_map fst]. fold (image_of m).
  rewrite vsize_app, IH, slot_size, total_cons. lia.
Qed.

Lemma put_bytes_ok bs : forall a x b p, List.length x = List.length bs -> p = vsize a ->
  put_bytes (a ++ x ++ b) p bs = Ok (a ++ map Some bs ++ b).
Proof.
  induction bs as [|c bs IH]; intros a [|y x] b p L ->; try discriminate; [reflexivity|].
  cbn [put_bytes map app]. unfold put. rewrite wr_mid by reflexivity. cbn [bind].
  change (a ++ Some c :: x ++ b) with (a ++ [Some c] ++ x ++ b). rewrite app_assoc.
  rewrite IH; [|injection L; auto|rewrite vsize_app; reflexivity]. rewrite <- app_assoc. reflexivity.
Qed.
Lemma put_bytes_none bs a n p : vsize bs <= n -> p = vsize a ->
  put_bytes (a ++ repeat None (Z.to_nat n)) p bs = Ok ((a ++ map Some bs) ++ repeat None (Z.to_nat (n - vsize bs))).
Proof.
  intros H ->. pose proof (vsize_nonneg bs). replace (Z.to_nat n) with (List.length bs + Z.to_nat (n - vsize bs))%nat by (unfold vsize in *; lia).
  rewrite repeat_app, put_bytes_ok; [rewrite <- app_assoc; reflexivity|apply repeat_length|reflexivity].
Qed.

Definition rest_of (m : names) (x : option Z) : list (option Z) :=
  match m with [] => [] | _ => x :: repeat None (Z.to_nat (4 * total m - 1)) end.

Lemma fill_words_ok m : forall pre x buf, vsize pre = 4 * buf -> (forall w, In w (keys m) -> vsize w < 4294967296) ->
  fill_words m buf (pre ++ rest_of m x) = if good_end m then Ok (pre ++ image_of m) else UB.
Proof.
  induction m as [|[w i] m IH]; intros pre x buf HP HW.
  - cbn. reflexivity.
  - pose proof (total_nonneg m) as HT. pose proof (vsize_nonneg w) as HV. pose proof (width_pos w) as HWp.
    assert (Hw : vsize w < 4294967296) by (apply HW; left; reflexivity).
    cbn [fill_words rest_of]. rewrite u32_small by lia. rewrite total_cons.
    assert (B : 4 * width w = 4 + 4 * cells (vsize w)) by (unfold width; lia).
    assert (C : vsize w <= 4 * cells (vsize w) < vsize w + 4) by (unfold cells; lia).
    assert (ER : x :: repeat None (Z.to_nat (4 * (width w + total m) - 1)) =
      [x; None; None; None] ++ repeat None (Z.to_nat (4 * (width w + total m) - 4))).
    { replace (Z.to_nat (4 * (width w + total m) - 1)) with (3 + Z.to_nat (4 * (width w + total m) - 4))%nat by lia. reflexivity. }
    rewrite ER, put_bytes_ok by (reflexivity || lia). cbn [bind].
    set (le := map Some (le_bytes (vsize w))). assert (Hle : vsize le = 4) by reflexivity.
    rewrite app_assoc, put_bytes_none by (rewrite ?vsize_app, ?Hle; lia). cbn [bind].
    set (n := 4 * (width w + total m) - 4 - vsize w).
    set (pre2 := (pre ++ le) ++ map Some w).
    assert (HP2 : vsize pre2 = 4 * (buf + 1) + vsize w) by (unfold pre2; rewrite !vsize_app, vsize_map; lia).
    assert (Hn : n = 4 * cells (vsize w) - vsize w + 4 * total m) by (unfold n; lia).
    assert (HP' : vsize (pre ++ slot w) = 4 * (buf + 1 + cells (vsize w))) by (rewrite vsize_app, slot_size; lia).
    assert (K' : forall w', In w' (keys m) -> vsize w' < 4294967296) by (intros w' H; apply HW; right; exact H).
    destruct (Z.eqb_spec (vsize w mod 4) 0) as [D|D].
    + assert (C0 : 4 * cells (vsize w) = vsize w) by (unfold cells; lia).
      assert (SL : pre ++ slot w = pre2).
      { unfold pre2, slot, pad. rewrite (proj2 (Z.eqb_eq _ _) D), app_nil_r, app_assoc. reflexivity. }
      destruct m as [|[w' i'] m'].
      * cbn [good_end fst]. rewrite (proj2 (Z.eqb_eq _ _) D). cbn [negb].
        change (total []) with 0 in Hn. replace n with 0 by lia. cbn [Z.to_nat repeat]. rewrite app_nil_r.
        unfold put, wr. destruct (_ <? 0); [reflexivity|]. fold (vsize pre2).
        rewrite (proj2 (Z.leb_le (vsize pre2) (4 * (buf + 1) + vsize w)) ltac:(lia)). reflexivity.
      * set (m := (w', i') :: m') in *. assert (1 <= total m) by (unfold m; rewrite total_cons; pose proof (width_pos w'); pose proof (total_nonneg m'); lia).
        replace (Z.to_nat n) with (S (Z.to_nat (4 * total m - 1))) by lia. cbn [repeat].
        unfold put. rewrite wr_mid by lia. cbn [bind]. rewrite <- SL.
        specialize (IH (pre ++ slot w) (Some 0) (buf + 1 + cells (vsize w)) HP' K').
        change (rest_of m (Some 0)) with (Some 0 :: repeat None (Z.to_nat (4 * total m - 1))) in IH. rewrite IH.
        change (good_end ((w, i) :: m)) with (good_end m). unfold image_of at 2. cbn [flat_map fst]. fold (image_of m).
        rewrite <- app_assoc. reflexivity.
    + assert (Hpos : 0 < n) by (unfold cells in *; lia).
      replace (Z.to_nat n) with (S (Z.to_nat (3 - vsize w mod 4) + Z.to_nat (4 * total m)))%nat by (unfold cells in *; lia).
      cbn [repeat]. unfold put. rewrite wr_mid by lia. cbn [bind]. rewrite repeat_app.
      assert (SL : pre2 ++ Some 0 :: repeat None (Z.to_nat (3 - vsize w mod 4)) ++ repeat None (Z.to_nat (4 * total m)) =
        (pre ++ slot w) ++ rest_of m None).
      { unfold pre2, slot, pad. rewrite (proj2 (Z.eqb_neq _ _) D). rewrite <- !app_assoc. cbn [app]. do 4 f_equal.
        destruct m as [|[w' i'] m']; [reflexivity|]. cbn [rest_of]. set (m := (w', i') :: m') in *.
        assert (1 <= total m) by (unfold m; rewrite total_cons; pose proof (width_pos w'); pose proof (total_nonneg m'); lia).
        replace (Z.to_nat (4 * total m)) with (S (Z.to_nat (4 * total m - 1))) by lia. reflexivity. }
      rewrite SL, (IH _ None _ HP' K').
      assert (GE : good_end ((w, i) :: m) = good_end m).
      { cbn [good_end fst]. destruct m; [|reflexivity]. rewrite (proj2 (Z.eqb_neq _ _) D). reflexivity. }
      rewrite GE. unfold image_of at 2. cbn [flat_map fst]. fold (image_of m). rewrite <- app_assoc. reflexivity.
Qed.

(** Reading the block. *)
Lemma byte_mid a x b i : i = vsize a -> byte (a ++ Some x :: b) i = Ok x.
Proof. intros H. unfold byte. rewrite rd_mid by exact H. reflexivity. Qed.

Section Block.
Context (m : names) (t : glyphs_table).
Hypothesis (HM : gt_mem t = image_of m).
Hypothesis (HW : forall w, In w (keys m) -> vsize w < 4294967296).

Lemma split_mem m1 w i m2 : m = m1 ++ (w, i) :: m2 ->
  gt_mem t = image_of m1 ++ map Some (le_bytes (vsize w)) ++ map Some w ++ pad w ++ image_of m2.
Proof.
  intros E. rewrite HM, E. unfold image_of. rewrite flat_map_app. cbn [flat_map fst]. unfold slot. rewrite <- !app_assoc. reflexivity.
Qed.
Lemma word_size_ok m1 w i m2 : m = m1 ++ (w, i) :: m2 -> word_size t (total m1) = Ok (vsize w).
Proof.
  intros E. pose proof (split_mem _ _ _ _ E) as S. pose proof (image_size m1) as V.
  assert (Hw : vsize w < 4294967296).
  { apply HW. rewrite E. unfold keys. rewrite map_app. apply in_or_app. right. left. reflexivity. }
  pose proof (vsize_nonneg w). unfold word_size. rewrite S. cbn [le_bytes map app].
  set (r := map Some w ++ pad w ++ image_of m2). set (a := image_of m1) in *.
  set (b0 := vsize w mod 256). set (b1 := vsize w / 256 mod 256). set (b2 := vsize w / 65536 mod 256). set (b3 := vsize w / 16777216 mod 256).
  rewrite byte_mid by lia. cbn [bind].
  change (a ++ Some b0 :: Some b1 :: Some b2 :: Some b3 :: r) with (a ++ [Some b0] ++ Some b1 :: Some b2 :: Some b3 :: r) at 1.
  rewrite app_assoc, byte_mid by (rewrite vsize_app; change (vsize [Some b0]) with 1; lia). cbn [bind].
  change (a ++ Some b0 :: Some b1 :: Some b2 :: Some b3 :: r) with (a ++ [Some b0; Some b1] ++ Some b2 :: Some b3 :: r) at 1.
  rewrite app_assoc, byte_mid by (rewrite vsize_app; change (vsize [Some b0; Some b1]) with 2; lia). cbn [bind].
  change (a ++ Some b0 :: Some b1 :: Some b2 :: Some b3 :: r) with (a ++ [Some b0; Some b1; Some b2] ++ Some b3 :: r).
  rewrite app_assoc, byte_mid by (rewrite vsize_app; change (vsize [Some b0; Some b1; Some b2]) with 3; lia). cbn [bind].
  f_equal. unfold b0, b1, b2, b3. clearbody a r. clear -H Hw. lia.
Qed.
Lemma map_res_bytes mem pre post : forall w k, mem = pre ++ map Some w ++ post -> 0 <= k ->
  forall w1 w2, w = w1 ++ w2 -> k = vsize w1 ->
  map_res (fun j => byte mem (vsize pre + j)) (map Z.of_nat (seq (Z.to_nat k) (List.length w2))) = Ok w2.
Proof.
  intros w k E Hk w1 w2. revert k Hk w1. induction w2 as [|c w2 IH]; intros k Hk w1 Ew Ek; [reflexivity|].
  cbn [List.length seq map map_res]. rewrite Z2Nat.id by lia.
  assert (EM : mem = (pre ++ map Some w1) ++ Some c :: map Some w2 ++ post).
  { rewrite E, Ew, map_app. cbn [map]. rewrite <- !app_assoc. reflexivity. }
  assert (Y : byte mem (vsize pre + k) = Ok c) by (rewrite EM; apply byte_mid; rewrite vsize_app, vsize_map; lia).
  rewrite Y. cbn [bind].
  specialize (IH (k + 1) ltac:(lia) (w1 ++ [c])). replace (S (Z.to_nat k)) with (Z.to_nat (k + 1)) by lia.
  rewrite IH; [reflexivity|rewrite <- app_assoc; exact Ew|rewrite vsize_app; change (vsize [c]) with 1; lia].
Qed.
Lemma word_text_ok m1 w i m2 : m = m1 ++ (w, i) :: m2 -> word_text t (total m1) = Ok w.
Proof.
  intros E. unfold word_text. rewrite (word_size_ok _ _ _ _ E). cbn [bind].
  pose proof (split_mem _ _ _ _ E) as S. rewrite app_assoc in S.
  pose proof (map_res_bytes (gt_mem t) _ _ w 0 S ltac:(lia) [] w eq_refl eq_refl) as R.
  unfold zrange. unfold vsize at 1. rewrite Nat2Z.id. rewrite vsize_app, image_size in R.
  change (vsize (map Some (le_bytes (vsize w)))) with 4 in R. replace (4 * (total m1 + 1)) with (4 * total m1 + 4) by lia. exact R.
Qed.

(** The byte after a word. *)
Definition after (w : list Z) (m2 : names) : option Z :=
  if vsize w mod 4 =? 0 then match m2 with [] => None | (w', _) :: _ => Some (vsize w' mod 256) end else Some 0.
Lemma after_ok w m2 x : after w m2 = Some x -> exists l, pad w ++ image_of m2 = Some x :: l.
Proof.
  unfold after, pad. destruct (_ =? 0).
  - destruct m2 as [|[w' i'] m2]; [discriminate|]. intros E. injection E as <-. eexists. reflexivity.
  - intros E. injection E as <-. eexists. reflexivity.
Qed.
Lemma byte_after m1 w i m2 x : m = m1 ++ (w, i) :: m2 -> after w m2 = Some x ->
  byte (gt_mem t) (4 * (total m1 + 1) + vsize w) = Ok x.
Proof.
  intros E H. apply after_ok in H. destruct H as (l & H). rewrite (split_mem _ _ _ _ E), H.
  rewrite !app_assoc. apply byte_mid. rewrite !vsize_app, image_size, !vsize_map.
  change (vsize (le_bytes (vsize w))) with 4. lia.
Qed.

(** Comparison with a word of the block. *)
Lemma lex_prefix s r : s = s ++ r \/ lex_lt s (s ++ r).
Proof.
  destruct r as [|c r]; [left; rewrite app_nil_r; reflexivity|right]. induction s as [|x s IH]; [constructor|]. cbn [app]. apply lex_tail. exact IH.
Qed.
Lemma lex_between s w r : lex_lt s w -> lex_lt w (s ++ r) -> starts_with s w.
Proof.
  revert w. induction s as [|x s IH]; intros w H K; [exists w; reflexivity|].
  inversion H; subst.
  - inversion K; subst; lia.
  - cbn [app] in K. inversion K; subst; [lia|]. destruct (IH b) as (r' & ->); [assumption|assumption|]. exists r'. reflexivity.
Qed.
Lemma compare_ok w : forall s mem pre post, mem = pre ++ map Some w ++ post -> bytes w ->
  (forall c s', s = w ++ c :: s' -> exists x l, post = Some x :: l /\ x < c) ->
  exists r, mem_compare s mem (vsize pre) = Ok r /\
    match r with Eq => starts_with s w | Lt => lex_lt s w /\ ~ starts_with s w | Gt => lex_lt w s end.
Proof.
  induction w as [|x w IH]; intros [|c s] mem pre post E B H.
  - exists Eq. split; [reflexivity|]. exists []. reflexivity.
  - destruct (H c s eq_refl) as (x & l & -> & Hx). exists Gt. split; [|constructor].
    cbn [mem_compare]. rewrite E. cbn [map app]. rewrite byte_mid by reflexivity. cbn [bind].
    destruct (Z.ltb_spec c x); [lia|]. destruct (Z.ltb_spec x c); [reflexivity|lia].
  - exists Eq. split; [reflexivity|]. exists (x :: w). reflexivity.
  - assert (Y : byte mem (vsize pre) = Ok x) by (rewrite E; apply byte_mid; reflexivity).
    cbn [mem_compare]. rewrite Y. cbn [bind].
    destruct (Z.ltb_spec c x) as [L|L].
    + exists Lt. split; [reflexivity|]. split; [constructor; exact L|]. intros (r & R). injection R as -> _. lia.
    + destruct (Z.ltb_spec x c) as [L'|L']; [exists Gt; split; [reflexivity|constructor; exact L']|].
      assert (c = x) by lia. subst c.
      destruct (IH s mem (pre ++ [Some x]) post) as (r & R & RR).
      * rewrite E, <- app_assoc. reflexivity.
      * intros y Hy. apply B. right. exact Hy.
      * intros c s' Es. apply (H c s'). rewrite Es. reflexivity.
      * rewrite vsize_app in R. change (vsize [Some x]) with 1 in R. exists r. split; [exact R|].
        destruct r.
        -- destruct RR as (r & ->). exists r. reflexivity.
        -- destruct RR as [RR N]. split; [apply lex_tail; exact RR|]. intros (r & R'). injection R' as R'. apply N. exists r. exact R'.
        -- apply lex_tail. exact RR.
Qed.

(** The search. *)
Hypothesis (HS : StronglySorted lex_lt (keys m)).
Hypothesis (HB : forall w, In w (keys m) -> bytes w).
Hypothesis (HT : gt_sz t = total m).
Hypothesis (HL : total m < 4294967296).
Hypothesis (HE : good_end m = true).

Lemma sorted_split m1 w i m2 : m = m1 ++ (w, i) :: m2 ->
  (forall x, In x (keys m1) -> lex_lt x w) /\ (forall x, In x (keys m2) -> lex_lt w x) /\ offs m w = total m1.
Proof.
  intros E. assert (S : StronglySorted lex_lt (keys m1 ++ w :: keys m2)).
  { rewrite E in HS. unfold keys in HS. rewrite map_app in HS. exact HS. }
  assert (A : forall x, In x (keys m1) -> lex_lt x w).
  { clear -S. induction (keys m1) as [|k l IH]; [intros ? []|]. cbn [app] in S. apply StronglySorted_inv in S. destruct S as [S F].
    intros x [<-|Hx]; [|apply IH; assumption]. rewrite Forall_forall in F. apply F. apply in_or_app. right. left. reflexivity. }
  split; [exact A|]. split.
  - clear -S. induction (keys m1) as [|k l IH]; cbn [app] in S; apply StronglySorted_inv in S; destruct S as [S F]; [|apply IH, S].
    rewrite Forall_forall in F. exact F.
  - rewrite E. apply offs_mid. intros H. exact (lex_irrefl w (A w H)).
Qed.
Lemma good_end_split m1 w i : m = m1 ++ [(w, i)] -> vsize w mod 4 <> 0.
Proof.
  intros E. rewrite E in HE. clear -HE. induction m1 as [|p m1 IH].
  - cbn in HE. destruct (Z.eqb_spec (vsize w mod 4) 0); [discriminate|assumption].
  - cbn [app good_end] in HE. destruct (m1 ++ [(w, i)]) eqn:E; [destruct m1; discriminate|apply IH, HE].
Qed.

Lemma index_of_ok s : searchable (keys m) s ->
  exists i, word_index_of t s = Ok i /\ answer (keys m) (offs m) s i.
Proof.
  intros [S0 SB]. unfold word_index_of. match goal with |- context [loop ?n ?b _] => set (fuel := n); set (body := b) end.
  assert (Hf : (List.length m < fuel)%nat).
  { unfold fuel. rewrite HM. pose proof (image_size m) as V. unfold vsize in V.
    assert (Z.of_nat (List.length m) <= total m).
    { clear. induction m as [|[w i] l IH]; [apply Z.le_refl|]. rewrite total_cons. pose proof (width_pos w). cbn [List.length]. lia. }
    pose proof (total_nonneg m). lia. }
  clearbody fuel.
  assert (M : forall m2 m1 fuel, m = m1 ++ m2 -> (List.length m2 < fuel)%nat -> (forall w, In w (keys m1) -> lex_lt w s) ->
    exists i, loop fuel body (total m1) = Ok i /\ answer (keys m) (offs m) s i).
  { clear fuel Hf. induction m2 as [|[w j] m2 IH]; intros m1 fuel E Hf HA; (destruct fuel as [|fuel]; [inversion Hf|]); cbn [loop]; unfold body at 1; rewrite HT.
    - rewrite app_nil_r in E. subst m1. rewrite Z.ltb_irrefl. exists no_index. split; [reflexivity|]. right. split; [|reflexivity].
      intros w Hw (r & ->). specialize (HA _ Hw). destruct (lex_prefix s r) as [X|X].
      + rewrite <- X in HA. exact (lex_irrefl _ HA).
      + exact (lex_irrefl _ (lex_trans _ _ _ X HA)).
    - assert (L : total m1 < total m) by (rewrite E, total_app, total_cons; pose proof (width_pos w); pose proof (total_nonneg m2); lia).
      rewrite (proj2 (Z.ltb_lt _ _) L). destruct (sorted_split _ _ _ _ E) as (P1 & P2 & P3).
      assert (Kw : In w (keys m)) by (rewrite E; unfold keys; rewrite map_app; apply in_or_app; right; left; reflexivity).
      destruct (compare_ok w s (gt_mem t) (image_of m1 ++ map Some (le_bytes (vsize w))) (pad w ++ image_of m2)) as (r & R & RR).
      + rewrite (split_mem _ _ _ _ E), <- app_assoc. reflexivity.
      + apply HB, Kw.
      + intros c s' Es. assert (Hc : In c s) by (rewrite Es; apply in_or_app; right; left; reflexivity).
        assert (A : exists x, after w m2 = Some x /\ x < c).
        { unfold after. destruct (Z.eqb_spec (vsize w mod 4) 0) as [D|D]; [|exists 0; split; [reflexivity|apply S0, Hc]].
          destruct m2 as [|[w' j'] m2]; [exfalso; exact (good_end_split _ _ _ E D)|].
          exists (vsize w' mod 256). split; [reflexivity|].
          assert (In w' (keys m)) by (rewrite E; unfold keys; rewrite map_app; apply in_or_app; right; right; left; reflexivity).
          specialize (SB w' c ltac:(assumption) Hc). pose proof (vsize_nonneg w'). pose proof (Z.mod_le (vsize w') 256). lia. }
        destruct A as (x & A & Hx). apply after_ok in A. destruct A as (l & A). exists x, l. auto.
      + rewrite vsize_app, image_size, vsize_map in R. change (vsize (le_bytes (vsize w))) with 4 in R.
        replace (4 * (total m1 + 1)) with (4 * total m1 + 4) by lia. rewrite R. cbn [bind].
        destruct r.
        * exists (total m1). split; [reflexivity|]. left. exists w. split; [|symmetry; exact P3]. split; [exact Kw|]. split; [exact RR|].
          intros w' Hw' (r' & ->). rewrite E in Hw'. unfold keys in Hw'. rewrite map_app in Hw'. apply in_app_or in Hw'.
          destruct Hw' as [Hw'|[Hw'|Hw']]; [|left; symmetry; exact Hw'|right; apply P2; exact Hw'].
          exfalso. specialize (HA _ Hw'). destruct (lex_prefix s r') as [X|X];
            [rewrite <- X in HA; exact (lex_irrefl _ HA)|exact (lex_irrefl _ (lex_trans _ _ _ X HA))].
        * exists no_index. split; [reflexivity|]. right. split; [|reflexivity]. destruct RR as [RR N].
          intros w' Hw' (r' & ->). rewrite E in Hw'. unfold keys in Hw'. rewrite map_app in Hw'. apply in_app_or in Hw'.
          destruct Hw' as [Hw'|[Hw'|Hw']].
          -- specialize (HA _ Hw'). destruct (lex_prefix s r') as [X|X];
               [rewrite <- X in HA; exact (lex_irrefl _ HA)|exact (lex_irrefl _ (lex_trans _ _ _ X HA))].
          -- apply N. exists r'. exact Hw'.
          -- apply N. apply (lex_between s w r'); [exact RR|apply P2; exact Hw'].
        * rewrite (word_size_ok _ _ _ _ E). cbn [bind].
          assert (EN : u32 (total m1 + (vsize w + 7) / 4) = total (m1 ++ [(w, j)])).
          { rewrite total_app, total_cons. change (total []) with 0.
            assert (total m1 + total [(w, j)] + total m2 = total m) by (rewrite E, total_app, !total_cons; change (total []) with 0; lia).
            rewrite total_cons in *. change (total []) with 0 in *.
            pose proof (total_nonneg m1). pose proof (total_nonneg m2). pose proof (width_pos w).
            assert (EW : (vsize w + 7) / 4 = width w) by (unfold width, cells; lia).
            rewrite EW, u32_small by lia. lia. }
          rewrite EN. apply IH; [rewrite <- app_assoc; exact E|cbn [List.length] in Hf; lia|].
          intros x Hx. unfold keys in Hx. rewrite map_app in Hx. apply in_app_or in Hx. destruct Hx as [Hx|[<-|[]]]; [apply HA, Hx|exact RR]. }
  destruct (M m [] fuel eq_refl Hf ltac:(intros ? [])) as (i & Hi & A). exists i. split; [exact Hi|exact A].
Qed.
End Block.
