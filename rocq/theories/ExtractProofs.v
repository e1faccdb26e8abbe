(** The loop over the characters and its cache. *)
From Verif Require Import Base BaseProofs ProofTools SortModel SortProofs ImageModel ImageSpec ImageProofs BoxModel BoxSpec BoxProofs StratModel ZoneModel
  DatasModel DatasSpec DatasProofs TrieModel TrieProofs FlatTrieProofs IndexModel FloatModel RecogModel RecogSpec RecogProofs FilterSpec ExtractModel ExtractSpec.
From Coq Require Import Sorted.

(** * A recognition depends on neither the contexts nor the buffers *)
Section Independence.
Context (img img90 : image) (t : table) (zsort : list Z -> list Z) (sortv : list Z -> list prob -> list prob) (sortp : list prob -> list prob).
Context (junk junk' : Z -> Z).
Let inp := mkin junk zsort img img90.
Let inp' := mkin junk' zsort img img90.
Context (HI : sound_input inp).

Definition alike_res {A} (m m' : res (A * ctxs)) : Prop :=
  match m, m' with
  | Ok (a, c), Ok (a', c') => a = a' /\ DatasProofs.coherent img img90 c /\ DatasProofs.coherent img img90 c'
  | UB, UB | NoFuel, NoFuel => True
  | Throw e, Throw e' => e = e'
  | _, _ => False
  end.
Lemma alike_bind {A B} (m m' : res (A * ctxs)) (k k' : A * ctxs -> res (B * ctxs)) : alike_res m m' ->
  (forall a c c', DatasProofs.coherent img img90 c -> DatasProofs.coherent img img90 c' -> alike_res (k (a, c)) (k' (a, c'))) ->
  alike_res (bind m k) (bind m' k').
Proof.
  destruct m as [[a c]| | |], m' as [[a' c']| | |]; cbn [alike_res bind]; try contradiction; auto.
  intros (<- & C & C') H. apply H; assumption.
Qed.
Lemma alike_pure {A B} (m : res A) (k k' : A -> res (B * ctxs)) : (forall a, alike_res (k a) (k' a)) -> alike_res (bind m k) (bind m k').
Proof. intros H. destruct m; cbn [bind]; [apply H| | |]; cbn; auto. Qed.
Lemma alike_ok {A} (a : A) c c' : DatasProofs.coherent img img90 c -> DatasProofs.coherent img img90 c' -> alike_res (Ok (a, c)) (Ok (a, c')).
Proof. cbn. auto. Qed.

Lemma sound_input' : sound_input inp'.
Proof. exact HI. Qed.
Lemma load_alike s c c' : In s all_strategies -> DatasProofs.coherent img img90 c -> DatasProofs.coherent img img90 c' -> alike_res (load inp s c) (load inp' s c').
Proof.
  intros Hs C C'. destruct (load_ok inp HI s c Hs C) as (c1 & -> & C1). destruct (load_ok inp' sound_input' s c' Hs C') as (c2 & -> & C2).
  cbn [alike_res]. auto.
Qed.
Lemma load_values_alike : forall ss c c', incl ss all_strategies -> DatasProofs.coherent img img90 c -> DatasProofs.coherent img img90 c' ->
  alike_res (load_values inp ss c) (load_values inp' ss c').
Proof.
  intros ss c c' Hs C C'. destruct (load_values_ok inp HI ss c Hs C) as (c1 & -> & C1).
  destruct (load_values_ok inp' sound_input' ss c' Hs C') as (c2 & -> & C2). cbn [alike_res]. auto.
Qed.
Lemma simple_incl : incl simple_strategies all_strategies.
Proof. unfold all_strategies. intros s H. apply in_or_app. left. exact H. Qed.
Lemma complex_incl : incl complex_strategies all_strategies.
Proof. unfold all_strategies. intros s H. apply in_or_app. right. apply in_or_app. left. exact H. Qed.
Lemma exclusive_incl : incl exclusive_strategies all_strategies.
Proof. unfold all_strategies. intros s H. apply in_or_app. right. apply in_or_app. right. exact H. Qed.

Lemma universe_alike ss c c' : incl ss all_strategies -> DatasProofs.coherent img img90 c -> DatasProofs.coherent img img90 c' ->
  alike_res (compute_simple_universe inp t ss c) (compute_simple_universe inp' t ss c').
Proof.
  intros Hs C C'. unfold compute_simple_universe. destruct ss as [|s ss]; [exact I|].
  apply alike_bind; [apply load_alike; auto; apply Hs; left; reflexivity|]. intros v c1 c1' C1 C1'.
  apply alike_pure; intros col. apply alike_pure; intros ps.
  apply alike_bind; [apply load_values_alike; auto; intros x Hx; apply Hs; right; exact Hx|]. intros vs c2 c2' C2 C2'.
  apply alike_pure; intros ps1. apply alike_pure; intros ps2. apply alike_pure; intros ps3. apply alike_ok; assumption.
Qed.
Lemma complex_alike ss : forall ps c c', incl ss all_strategies -> DatasProofs.coherent img img90 c -> DatasProofs.coherent img img90 c' ->
  alike_res (reduce_complex inp t ss ps c) (reduce_complex inp' t ss ps c').
Proof.
  induction ss as [|s ss IH]; intros ps c c' Hs C C'; cbn [reduce_complex]; [apply alike_ok; assumption|].
  apply alike_pure; intros col. apply alike_bind; [apply load_alike; auto; apply Hs; left; reflexivity|]. intros v c1 c1' C1 C1'.
  apply alike_pure; intros ps1. apply IH; auto. intros x Hx. apply Hs. right. exact Hx.
Qed.
Lemma exclusive_alike ss ps c c' : incl ss all_strategies -> DatasProofs.coherent img img90 c -> DatasProofs.coherent img img90 c' ->
  alike_res (reduce_exclusive inp t ss ps c) (reduce_exclusive inp' t ss ps c').
Proof.
  intros Hs C C'. unfold reduce_exclusive. destruct ps as [|p ps]; [apply alike_ok; assumption|].
  apply alike_bind; [apply load_values_alike; auto|]. intros vs c2 c2' C2 C2'. apply alike_pure; intros ps1. apply alike_ok; assumption.
Qed.
Lemma compute_alike limit c c' :
  alike_res (compute_image sortv sortp simple_strategies complex_strategies exclusive_strategies t inp limit c)
    (compute_image sortv sortp simple_strategies complex_strategies exclusive_strategies t inp' limit c').
Proof.
  unfold compute_image. apply alike_bind; [apply universe_alike; [exact simple_incl|apply reset_coherent|apply reset_coherent]|].
  intros ps c1 c1' C1 C1'. apply alike_pure; intros ps1. cbv zeta.
  assert (F : forall ps cx cx', DatasProofs.coherent img img90 cx -> DatasProofs.coherent img img90 cx' ->
    alike_res (ps0 <- unique_by_views (t_ids t) ps ;;
      match sortp ps0 with [] => Ok ([], cx) | p :: _ => l <- insert_views (t_glyphs t) (dmul (pr_p p) limit) (sortp ps0) ;; Ok (l, cx) end)
     (ps0 <- unique_by_views (t_ids t) ps ;;
      match sortp ps0 with [] => Ok ([], cx') | p :: _ => l <- insert_views (t_glyphs t) (dmul (pr_p p) limit) (sortp ps0) ;; Ok (l, cx') end)).
  { intros ps' cx cx' D D'. apply alike_pure; intros ps0. destruct (sortp ps0) as [|p pp]; [apply alike_ok; assumption|].
    apply alike_pure; intros l. apply alike_ok; assumption. }
  destruct (complex_strategies ++ exclusive_strategies) as [|ss0 ss1]; [apply F; assumption|]. apply alike_pure; intros tmp.
  destruct (sortp tmp) as [|p pp]; [apply alike_ok; assumption|]. destruct (dle d1 (pr_p p)).
  - apply alike_pure; intros l. apply alike_ok; assumption.
  - apply alike_bind; [apply complex_alike; [exact complex_incl|assumption|assumption]|]. intros ps2 c2 c2' C2 C2'.
    apply alike_bind; [apply exclusive_alike; [exact exclusive_incl|assumption|assumption]|]. intros ps3 c3 c3' C3 C3'.
    apply alike_pure; intros ps4. apply F; assumption.
Qed.
End Independence.

Lemma recognised_any e img junk cx l cx' img90 : recognisable img -> is_std_sort Z.ltb (r_zsort e) -> rotate90 img = Ok img90 ->
  compute_image (r_sortv e) (r_sortp e) simple_strategies complex_strategies exclusive_strategies
      (r_table e) (mkin junk (r_zsort e) img img90) dhalf cx = Ok (l, cx') -> recognised e img l.
Proof.
  intros R Hz Er E junk' cx2. exists img90.
  assert (HI : sound_input (mkin junk (r_zsort e) img img90)) by (split; [exact R|]; split; [exact Er|exact Hz]).
  pose proof (compute_alike img img90 (r_table e) (r_zsort e) (r_sortv e) (r_sortp e) junk junk' HI dhalf cx cx2) as A. rewrite E in A.
  destruct (compute_image _ _ _ _ _ _ (mkin junk' (r_zsort e) img img90) dhalf cx2) as [[l' c2]| | |]; cbn [alike_res] in A; try contradiction.
  destruct A as (<- & _). exists c2. split; [exact Er|reflexivity].
Qed.

(** * The cache *)
Definition img_before (a b : image) : Prop := image_compare a b = Ok (-1).
Definition key_before (a b : image * Z) : Prop := img_before (fst a) (fst b).
Definition good_cache (c : list (image * Z)) : Prop := StronglySorted key_before c /\ forall p, In p c -> wf_image (fst p).

Lemma img_less_cases a b : wf_image a -> wf_image b ->
  (img_less a b = Ok true /\ img_before a b /\ img_less b a = Ok false) \/
  (a = b /\ img_less a b = Ok false /\ img_less b a = Ok false) \/
  (img_less a b = Ok false /\ img_before b a /\ img_less b a = Ok true).
Proof.
  intros Wa Wb. destruct (image_compare_law a b (wf_full a Wa) (wf_full b Wb)) as (c & E1 & E2 & Hc & H0 & _). unfold img_less, img_before. rewrite E1, E2. cbn [bind].
  destruct Hc as [->|[->| ->]].
  - left. repeat split; reflexivity.
  - right. left. split; [apply (same_picture_eq a b (wf_full a Wa) (wf_full b Wb)), H0; reflexivity|]. split; reflexivity.
  - right. right. repeat split; reflexivity.
Qed.
Lemma img_before_irrefl a : wf_image a -> ~ img_before a a.
Proof.
  intros W H. destruct (image_compare_law a a (wf_full a W) (wf_full a W)) as (c & E1 & E2 & _). unfold img_before in H. rewrite H in E1. injection E1 as <-. rewrite H in E2. discriminate.
Qed.

Lemma cache_find_spec img : wf_image img -> forall c, good_cache c ->
  exists o, cache_find c img = Ok o /\
    match o with Some r => In (img, r) c | None => forall p, In p c -> fst p <> img end.
Proof.
  intros W. induction c as [|[k r] c IH]; intros [S Wc].
  - exists None. split; [reflexivity|]. intros p [].
  - apply StronglySorted_inv in S. destruct S as [S F]. assert (Wk : wf_image k) by exact (Wc (k, r) (or_introl eq_refl)).
    destruct (IH (conj S (fun p H => Wc p (or_intror H)))) as (o & E & Ho). cbn [cache_find].
    destruct (img_less_cases k img Wk W) as [(-> & B & _)|[(-> & L1 & L2)|(-> & B & L2)]]; cbn [bind].
    + exists o. split; [exact E|]. destruct o as [r'|]; [right; exact Ho|]. intros p [<-|Hp]; [|apply Ho, Hp]. cbn [fst]. intros ->. apply (img_before_irrefl img W B).
    + rewrite L1. cbn [bind]. exists (Some r). split; [reflexivity|]. left. reflexivity.
    + rewrite L2. cbn [bind]. exists None. split; [reflexivity|]. intros p [<-|Hp]; cbn [fst].
      * intros ->. apply (img_before_irrefl img W B).
      * intros Ek. rewrite Forall_forall in F. specialize (F p Hp). unfold key_before in F. cbn [fst] in F. rewrite Ek in F.
        apply (img_before_irrefl img W). exact (image_compare_trans _ _ _ (wf_full _ W) (wf_full _ Wk) (wf_full _ W) B F).
Qed.
Lemma cache_emplace_spec img v : wf_image img -> forall c, good_cache c -> (forall p, In p c -> fst p <> img) ->
  exists c', cache_emplace c img v = Ok c' /\ good_cache c' /\ forall p, In p c' <-> p = (img, v) \/ In p c.
Proof.
  intros W. induction c as [|[k r] c IH]; intros [S Wc] N.
  - exists [(img, v)]. split; [reflexivity|]. split; [split; [repeat constructor|intros p [<-|[]]; exact W]|]. intros p. cbn [In]. intuition.
  - apply StronglySorted_inv in S. destruct S as [S F]. assert (Wk : wf_image k) by exact (Wc (k, r) (or_introl eq_refl)).
    destruct (IH (conj S (fun p H => Wc p (or_intror H))) (fun p H => N p (or_intror H))) as (c' & E & [S' W'] & H'). cbn [cache_emplace].
    destruct (img_less_cases k img Wk W) as [(-> & B & _)|[(-> & L1 & L2)|(-> & B & L2)]]; cbn [bind].
    + rewrite E. cbn [bind]. exists ((k, r) :: c'). split; [reflexivity|]. split; [split|].
      * constructor; [exact S'|]. apply Forall_forall. intros p Hp. apply H' in Hp. destruct Hp as [->|Hp]; [exact B|]. rewrite Forall_forall in F. apply F, Hp.
      * intros p [<-|Hp]; [exact Wk|apply W', Hp].
      * intros p. cbn [In]. rewrite H'. intuition.
    + exfalso. apply (N (img, r)); [left; reflexivity|reflexivity].
    + rewrite L2. cbn [bind]. exists ((img, v) :: (k, r) :: c). split; [reflexivity|]. split; [split|].
      * constructor; [constructor; assumption|]. constructor; [exact B|]. rewrite Forall_forall in *. intros p Hp. specialize (F p Hp). unfold key_before in *. cbn [fst] in *.
        exact (image_compare_trans _ _ _ (wf_full _ W) (wf_full _ Wk) (wf_full _ (Wc p (or_intror Hp))) B F).
      * intros p [<-|Hp]; [exact W|apply Wc, Hp].
      * intros p. cbn [In]. intuition.
Qed.

(** * The loop *)
Section Loop.
Context (e : recogniser) (img : image) (HE : sound_recogniser e) (Hs : box_searchable img).

Local Notation has_list := (has_list e img).
Definition good_state (s : lstate) : Prop :=
  good_cache (l_cache s) /\
  (forall k r, In (k, r) (l_cache s) -> 0 <= r < vsize (l_store s) /\ recognised e k (list_at (l_store s) r)) /\
  Forall2 (has_list (l_store s)) (l_boxes s) (l_amb s) /\
  Forall2 (fun b r => exists im, char_image img b im /\ In (im, r) (l_cache s)) (l_boxes s) (l_amb s) /\
  (forall k k' r, In (k, r) (l_cache s) -> In (k', r) (l_cache s) -> k = k').

Lemma list_at_snoc st l r : 0 <= r < vsize st -> list_at (st ++ [l]) r = list_at st r.
Proof. intros H. unfold list_at, vsize in *. apply app_nth1. lia. Qed.
Lemma list_at_last st l : list_at (st ++ [l]) (vsize st) = l.
Proof. unfold list_at, vsize. rewrite Nat2Z.id, app_nth2, Nat.sub_diag by lia. reflexivity. Qed.
Lemma has_list_snoc st l b r : has_list st b r -> has_list (st ++ [l]) b r.
Proof. intros (Hr & im & C & R). split; [rewrite vsize_app; pose proof (vsize_nonneg [l]); lia|]. exists im. rewrite list_at_snoc by exact Hr. auto. Qed.
Lemma Forall2_impl {A B} (P Q : A -> B -> Prop) l l' : (forall a b, P a b -> Q a b) -> Forall2 P l l' -> Forall2 Q l l'.
Proof. intros H F. induction F; constructor; auto. Qed.
Lemma Forall2_snoc {A B} (P : A -> B -> Prop) l l' a b : Forall2 P l l' -> P a b -> Forall2 P (l ++ [a]) (l' ++ [b]).
Proof. intros F H. apply Forall2_app; [exact F|constructor; [exact H|constructor]]. Qed.

Local Notation can_read := (can_read e img).

Lemma char_section x b : tight_box img x b -> 0 <= x -> exists im, section img (bx b) (by_ b) (bw b) (bh b) = Ok im /\ char_image img b im.
Proof.
  intros T Hx. destruct Hs as (W & _). unfold tight_box in T.
  destruct (section_law img (bx b) (by_ b) (bw b) (bh b) W) as (im & E & Wi & w & h & P); try lia. exists im. split; [exact E|].
  split; [exact Wi|]. auto.
Qed.
Lemma char_image_unique b im im' : char_image img b im -> char_image img b im' -> im = im'.
Proof.
  intros (W & w & h & P) (W' & w' & h' & P'). apply image_ext; [exact (wf_full _ W)|exact (wf_full _ W')|]. split; [congruence|]. split; [congruence|]. intros i j.
  destruct ((0 <=? i) && (i <? bw b) && (0 <=? j) && (j <? bh b)) eqn:B.
  - rewrite P, P' by lia. reflexivity.
  - unfold pix. rewrite w, h, w', h', B. reflexivity.
Qed.

Lemma char_step_ok s b x : good_state s -> tight_box img x b -> 0 <= x ->
  (can_read b -> exists s', char_step e img s b = Ok s') /\
  (forall s', (forall im, char_image img b im -> recognisable im) -> char_step e img s b = Ok s' -> good_state s' /\ l_boxes s' = l_boxes s ++ [b] /\ l_x s' = u32 (bx b + bw b) /\
     l_spaces s' = (if u32 (l_x s + 4) <? bx b then l_spaces s ++ [u32 (vsize (l_boxes s))] else l_spaces s)).
Proof.
  intros (GC & GK & GA & GI & GD) T Hx. destruct (char_section x b T Hx) as (im & Es & Ci). unfold char_step. rewrite Es. cbn [bind].
  pose proof Ci as (Wi & _). destruct (cache_find_spec im Wi (l_cache s) GC) as (o & -> & Ho). cbn [bind]. destruct o as [r|].
  - split; [intros _; eexists; reflexivity|]. intros s' _ [= <-]. cbn [l_boxes l_x l_spaces]. destruct (GK im r Ho) as [Hr Rr].
    split; [|auto]. split; [exact GC|]. split; [exact GK|]. cbn [l_boxes l_amb l_store l_cache].
    split; [apply Forall2_snoc; [exact GA|]; split; [exact Hr|]; exists im; auto|]. split; [apply Forall2_snoc; [exact GI|]; exists im; auto|exact GD].
  - destruct (cache_emplace_spec im (vsize (l_store s)) Wi (l_cache s) GC Ho) as (c' & Ec & GC' & HC').
    rewrite (clone_law im Wi). unfold recognise_img. split.
    + intros CR. destruct (CR im Ci) as [R [l Rl]]. destruct (Rl (r_junk e (vsize (l_store s))) (l_cx s)) as (img90 & cx' & Er & El).
      rewrite Er. cbn [bind]. rewrite El. cbn [bind]. rewrite Ec. eexists. reflexivity.
    + intros s' HR. destruct (rotate90 im) as [img90| | |] eqn:Er; cbn [bind]; try discriminate.
      destruct (compute_image _ _ _ _ _ _ _ _ _) as [[l cx']| | |] eqn:El; cbn [bind]; try discriminate. rewrite Ec. cbn [bind]. intros [= <-].
      cbn [l_boxes l_x l_spaces]. split; [|auto].
      assert (Rl : recognised e im l) by (eapply recognised_any; [apply HR, Ci|apply HE|exact Er|exact El]).
      assert (Vn : 0 <= vsize (l_store s) < vsize (l_store s ++ [l])) by (rewrite vsize_app, vsize_cons; pose proof (vsize_nonneg (l_store s)); change (vsize (@nil (list oview))) with 0; lia).
      split; [exact GC'|]. split; [|split; [|split]]; cbn [l_cache l_store l_boxes l_amb].
      * intros k r Hk. apply HC' in Hk. destruct Hk as [[= -> ->]|Hk]; [split; [exact Vn|]; rewrite list_at_last; exact Rl|].
        destruct (GK k r Hk) as [Hr Rr]. split; [lia|]. rewrite list_at_snoc by exact Hr. exact Rr.
      * apply Forall2_snoc; [eapply Forall2_impl; [|exact GA]; intros; apply has_list_snoc; assumption|].
        split; [exact Vn|]. exists im. rewrite list_at_last. auto.
      * apply Forall2_snoc; [eapply Forall2_impl; [|exact GI]; intros b0 r0 (im0 & C0 & I0); exists im0; split; [exact C0|apply HC'; right; exact I0]|].
        exists im. split; [exact Ci|]. apply HC'. left. reflexivity.
      * intros k k' r Hk Hk'. apply HC' in Hk. apply HC' in Hk'. destruct Hk as [E1|Hk], Hk' as [E2|Hk'].
        -- congruence.
        -- injection E1 as _ ->. destruct (GK k' _ Hk') as [Hb _]. lia.
        -- injection E2 as _ ->. destruct (GK k _ Hk) as [Hb _]. lia.
        -- exact (GD k k' r Hk Hk').
Qed.

Definition seg_body : Z * list box -> res (Z * list box + list box) :=
  fun '(x, boxes) =>
       cbox <- make_box_character img x 0 (iw img) (ih img) ;;
       if box_bool cbox then Ok (inl (u32 (bx cbox + bw cbox), boxes ++ [cbox]))
       else Ok (inr boxes).
Lemma read_loop : forall fuel s, good_state s -> 0 <= l_x s <= iw img -> iw img - l_x s < Z.of_nat fuel ->
  vsize (l_boxes s) <= l_x s ->
  exists rest, loop fuel seg_body (l_x s, l_boxes s) = Ok (l_boxes s ++ rest) /\
    let m := loop fuel (fun s => cbox <- make_box_character img (l_x s) 0 (iw img) (ih img) ;;
       if box_bool cbox then s' <- char_step e img s cbox ;; Ok (inl s') else Ok (inr s)) s in
    (Forall can_read rest -> exists s', m = Ok s') /\
    (Forall (fun b => forall im, char_image img b im -> recognisable im) rest -> forall s', m = Ok s' -> good_state s' /\ l_boxes s' = l_boxes s ++ rest /\
       l_spaces s' = l_spaces s ++ breaks (l_x s) (vsize (l_boxes s)) rest).
Proof.
  cbv zeta. induction fuel as [|f IH]; intros s G Hx Hf Hn; [lia|]. cbn [loop].
  destruct (make_box_spec img Hs (l_x s) Hx) as (b & Eb & [(Hi & H0 & H1)|Ht]); rewrite Eb; cbn [bind].
  - replace (box_bool b) with false by (unfold box_bool; rewrite H0; reflexivity).
    exists []. split; [cbn [seg_body]; rewrite Eb; cbn [bind]; unfold box_bool; rewrite H0; rewrite app_nil_r; reflexivity|]. split; [intros _; eexists; reflexivity|]. intros _ s' [= <-]. cbn [breaks]. rewrite !app_nil_r. auto.
  - pose proof (tight_nonempty _ _ _ Ht) as Hne. apply box_bool_iff in Hne. rewrite Hne.
    pose proof (bs_facts img Hs) as (HW & _).
    assert (Hb : l_x s <= bx b /\ 0 < bw b /\ bx b + bw b < iw img) by (unfold tight_box in Ht; lia).
    assert (HW2 : iw img < 2147483648) by (destruct Hs as (_ & ? & ? & ?); nia).
    destruct (char_step_ok s b (l_x s) G Ht ltac:(lia)) as [C1 C2].
    assert (RB : exists rest', loop f seg_body (bx b + bw b, l_boxes s ++ [b]) = Ok ((l_boxes s ++ [b]) ++ rest')).
    { destruct (segment_loop img Hs f (bx b + bw b) (l_boxes s ++ [b])) as (r & Er & _); [lia|lia|]. exists r. exact Er. }
    assert (SB : forall rest, loop f seg_body (bx b + bw b, l_boxes s ++ [b]) = Ok ((l_boxes s ++ [b]) ++ rest) ->
       match seg_body (l_x s, l_boxes s) with Ok (inl s') => loop f seg_body s' | Ok (inr r) => Ok r | Throw e => Throw e | UB => UB | NoFuel => NoFuel end = Ok (l_boxes s ++ b :: rest)).
    { intros rest Er. cbn [seg_body]. rewrite Eb. cbn [bind]. rewrite Hne, u32_small by lia. rewrite Er, <- app_assoc. reflexivity. }
    destruct (char_step e img s b) as [s1| | |] eqn:E1; cbn [bind].
    + assert (RD : (forall im, char_image img b im -> recognisable im) \/ ~ (forall im, char_image img b im -> recognisable im)).
      { destruct (char_section (l_x s) b Ht ltac:(lia)) as (im & _ & Ci).
        assert (D : recognisable im \/ ~ recognisable im).
        { unfold recognisable. destruct Ci as (Wi & _).
          destruct (Z_le_dec 1 (iw im)), (Z_le_dec 1 (ih im)), (Z_lt_dec (100 * (iw im * ih im * ih im)) 2147483648), (Z_lt_dec (100 * (iw im * ih im * iw im)) 2147483648); tauto. }
        destruct D as [D|D]; [left; intros im' Ci'; rewrite (char_image_unique b im' im Ci' Ci); exact D|right; intros H; exact (D (H im Ci))]. }
      destruct RD as [RD|RD].
      * destruct (C2 s1 RD eq_refl) as (G1 & B1 & X1 & S1). rewrite u32_small in X1 by lia.
        assert (Vn : vsize (l_boxes s1) = vsize (l_boxes s) + 1) by (rewrite B1, vsize_app; reflexivity).
        destruct (IH s1 G1 ltac:(lia) ltac:(lia) ltac:(lia)) as (rest & Hr & M1 & M2). rewrite X1, B1 in Hr.
        exists (b :: rest). split; [exact (SB rest Hr)|]. split.
        -- intros H. inversion H; subst. apply M1. assumption.
        -- intros H s' Es. inversion H; subst. destruct (M2 ltac:(assumption) s' Es) as (G2 & B2 & S2). split; [exact G2|].
           split; [rewrite B2, B1, <- app_assoc; reflexivity|]. rewrite S2, S1, X1, Vn. cbn [breaks]. pose proof (vsize_nonneg (l_boxes s)). rewrite !u32_small by lia.
           destruct (l_x s + 4 <? bx b); [rewrite <- app_assoc; reflexivity|reflexivity].
      * destruct RB as [rest Hr]. exists (b :: rest). split; [exact (SB rest Hr)|]. split.
        -- intros H. exfalso. inversion H; subst. apply RD. intros im Ci. apply (proj1 (H4 im Ci)) || apply (proj1 (H3 im Ci)) || apply (proj1 (H2 im Ci)).
        -- intros H. exfalso. inversion H; subst. contradiction.
    + destruct RB as [rest Hr]. exists (b :: rest). split; [exact (SB rest Hr)|]. split; [intros H; exfalso; inversion H; subst; destruct (C1 ltac:(assumption)) as [? K]; discriminate K|intros _ s' K; discriminate K].
    + destruct RB as [rest Hr]. exists (b :: rest). split; [exact (SB rest Hr)|]. split; [intros H; exfalso; inversion H; subst; destruct (C1 ltac:(assumption)) as [? K]; discriminate K|intros _ s' K; discriminate K].
    + destruct RB as [rest Hr]. exists (b :: rest). split; [exact (SB rest Hr)|]. split; [intros H; exfalso; inversion H; subst; destruct (C1 ltac:(assumption)) as [? K]; discriminate K|intros _ s' K; discriminate K].
Qed.

Lemma read_line_ok boxes cx : segment img = Ok boxes -> Forall (fun b => forall im, char_image img b im -> recognisable im) boxes ->
  (Forall can_read boxes -> exists s, read_line e img cx = Ok s) /\
  forall s, read_line e img cx = Ok s -> l_boxes s = boxes /\ l_spaces s = breaks 0 0 boxes /\
    Forall2 (has_list (l_store s)) boxes (l_amb s).
Proof.
  intros Eb HR. unfold read_line.
  assert (G0 : good_state (mkls 0 [] [] [] [] [] cx)).
  { split; [split; [constructor|intros p []]|]. split; [intros k r []|]. split; [constructor|]. split; [constructor|intros k k' r []]. }
  destruct Hs as (_ & Hw & _).
  destruct (read_loop (S (Z.to_nat (iw img))) (mkls 0 [] [] [] [] [] cx) G0) as (rest & Er & M1 & M2); cbn [l_x l_boxes] in *; [lia|lia|apply Z.le_refl|].
  assert (rest = boxes).
  { change (loop (S (Z.to_nat (iw img))) seg_body (0, [])) with (segment img) in Er. rewrite Eb in Er. injection Er as <-. reflexivity. }
  subst rest. split; [exact M1|]. intros s Es. destruct (M2 HR s Es) as ((_ & _ & A & _) & B & S). cbn [app l_boxes l_spaces l_x] in *.
  split; [exact B|]. split; [exact S|]. rewrite <- B. exact A.
Qed.

Lemma cache_key c k r r' : good_cache c -> In (k, r) c -> In (k, r') c -> r = r'.
Proof.
  intros [S W] H. assert (Wk : wf_image k) by exact (W _ H). clear W. revert H.
  assert (Irr : forall x y, ~ key_before (k, x) (k, y)) by (intros x y K; exact (img_before_irrefl k Wk K)).
  induction S as [|p c S IH F]; intros H H'; [destruct H|]. rewrite Forall_forall in F.
  destruct H as [->|H], H' as [E|H'].
  - congruence.
  - exfalso. exact (Irr _ _ (F _ H')).
  - subst p. exfalso. exact (Irr _ _ (F _ H)).
  - exact (IH H H').
Qed.
Lemma Forall2_combine {A B} (P : A -> B -> Prop) l l' a b : Forall2 P l l' -> In (a, b) (combine l l') -> P a b.
Proof. induction 1 as [|x y l l' H F IH]; [intros []|]. intros [E|K]; [injection E as <- <-; exact H|exact (IH K)]. Qed.
Lemma read_line_shared boxes cx s : segment img = Ok boxes -> Forall (fun b => forall im, char_image img b im -> recognisable im) boxes ->
  read_line e img cx = Ok s -> shared img boxes (l_amb s).
Proof.
  intros Eb HR. unfold read_line.
  assert (G0 : good_state (mkls 0 [] [] [] [] [] cx)).
  { split; [split; [constructor|intros p []]|]. split; [intros k r []|]. split; [constructor|]. split; [constructor|intros k k' r []]. }
  destruct Hs as (_ & Hw & _).
  destruct (read_loop (S (Z.to_nat (iw img))) (mkls 0 [] [] [] [] [] cx) G0) as (rest & Er & M1 & M2); cbn [l_x l_boxes] in *; [lia|lia|apply Z.le_refl|].
  assert (rest = boxes).
  { change (loop (S (Z.to_nat (iw img))) seg_body (0, [])) with (segment img) in Er. rewrite Eb in Er. injection Er as <-. reflexivity. }
  subst rest. intros Es. destruct (M2 HR s Es) as ((GC & _ & _ & GI & GD) & B & _). cbn [app l_boxes] in B. rewrite B in GI.
  intros b r b' r' im im' H H' C C'. destruct (Forall2_combine _ _ _ _ _ GI H) as (i1 & C1 & K1). destruct (Forall2_combine _ _ _ _ _ GI H') as (i2 & C2 & K2).
  rewrite (char_image_unique b im i1 C C1), (char_image_unique b' im' i2 C' C2). split.
  - intros ->. exact (GD _ _ _ K1 K2).
  - intros ->. exact (cache_key _ _ _ _ GC K1 K2).
Qed.
End Loop.
