(** Pictures side by side: proofs. *)
From Verif Require Import Base BaseProofs ProofTools ImageModel ImageSpec ImageProofs BoxModel BoxSpec BoxProofs SortModel TrieProofs StratModel ZoneModel DatasModel
  StreamModel GlyphIoModel GlyphIoSpec DatasIoModel DictIoModel PnmModel TrieModel IndexModel FloatModel RecogModel GlyphsModel ExtractModel ExtractSpec ExtractProofs
  LearnModel LearnSpec LearnProofs ShowModel ShowSpec ShowProofs MarginSpec MarginProofs ComposeSpec.

(** * The characters *)
Section Part.
Context (c : image) (dx dy : Z) (a : image) (F : stands c (dx, dy, a)).

Lemma part_ink x y : dx <= x < dx + iw a -> ink c x y = ink a (x - dx) (y - dy).
Proof.
  destruct F as (X & Y & W & H & P & I & L). intros Hx.
  destruct ((0 <=? x - dx) && (x - dx <? iw a) && (0 <=? y - dy) && (y - dy <? ih a)) eqn:E.
  - unfold ink. replace (pix c x y) with (pix a (x - dx) (y - dy)); [reflexivity|]. rewrite <- P by lia. f_equal; lia.
  - transitivity false.
    + destruct (ink c x y) eqn:B; [|reflexivity]. apply I in B; lia.
    + unfold ink, pix. rewrite E. reflexivity.
Qed.
Lemma part_col k : 0 <= k < iw a -> (col_has_ink c (k + dx) <-> col_has_ink a k).
Proof.
  intros Hk. unfold col_has_ink. split.
  - intros (y & H). rewrite part_ink in H by lia. replace (k + dx - dx) with k in H by lia. eauto.
  - intros (y & H). exists (y + dy). rewrite part_ink by lia. replace (k + dx - dx) with k by lia. replace (y + dy - dy) with y by lia. exact H.
Qed.
Lemma part_linked k : 0 <= k -> k + 1 < iw a -> (col_linked c (k + dx) <-> col_linked a k).
Proof.
  intros Hk Hk'. unfold col_linked. split.
  - intros (y & y' & H1 & H2 & H3). rewrite part_ink in H1, H2 by lia. replace (k + dx - dx) with k in H1 by lia. replace (k + dx + 1 - dx) with (k + 1) in H2 by lia. exists (y - dy), (y' - dy). split; [exact H1|]. split; [exact H2|lia].
  - intros (y & y' & H1 & H2 & H3). exists (y + dy), (y' + dy). rewrite !part_ink by lia. replace (y + dy - dy) with y by lia. replace (y' + dy - dy) with y' by lia.
    replace (k + dx - dx) with k by lia. replace (k + dx + 1 - dx) with (k + 1) by lia. split; [exact H1|]. split; [exact H2|lia].
Qed.
Lemma part_row x0 x1 r : 0 <= x0 -> x1 <= iw a -> (row_has_ink c (x0 + dx) (x1 + dx) r <-> row_has_ink a x0 x1 (r - dy)).
Proof.
  intros H0 H1. unfold row_has_ink. split.
  - intros (x & H2 & H3). rewrite part_ink in H3 by lia. exists (x - dx). split; [lia|exact H3].
  - intros (x & H2 & H3). exists (x + dx). rewrite part_ink by lia. replace (x + dx - dx) with x by lia. split; [lia|exact H3].
Qed.
Lemma part_last : ~ col_has_ink a (iw a - 1).
Proof. destruct F as (_ & _ & _ & _ & _ & _ & L). intros (y & H). rewrite L in H. discriminate. Qed.
Lemma part_tight s s' t : 0 <= s -> tight_box a s t -> s' <= s + dx -> (forall k, s' <= k < s + dx -> ~ col_has_ink c k) -> tight_box c s' (moved dx dy t).
Proof.
  intros H0 T Hs N. destruct F as (X & Y & W & H & P & I & L). unfold tight_box in *. unfold moved. cbn [bx by_ bw bh].
  destruct T as (A1 & A2 & A3 & A4 & A5 & A6 & A7 & A8 & A9 & A10 & A11 & A12 & A13).
  replace (bx t + dx + bw t) with (bx t + bw t + dx) by lia.
  split; [lia|]. split; [lia|]. split; [lia|]. split; [apply part_col; [lia|exact A4]|].
  split; [intros k Hk; destruct (Z.ltb_spec k (s + dx)); [apply N; lia|replace k with (k - dx + dx) by lia; rewrite part_col by lia; apply A5; lia]|].
  split; [lia|]. split; [intros k Hk; replace k with (k - dx + dx) by lia; apply part_linked; [lia|lia|]; apply A7; lia|].
  split.
  { intros _ K. replace (bx t + bw t + dx - 1) with (bx t + bw t - 1 + dx) in K by lia. apply part_linked in K; [|lia|lia].
    destruct (Z.ltb_spec (bx t + bw t) (iw a - 1)) as [Q|Q]; [exact (A8 Q K)|]. destruct K as (y & y' & _ & K & _).
    apply part_last. exists y'. replace (iw a - 1) with (bx t + bw t - 1 + 1) by lia. exact K. }
  split; [lia|]. split; [lia|].
  split; [apply part_row; [lia|lia|]; replace (by_ t + dy - dy) with (by_ t) by lia; exact A11|].
  split; [apply part_row; [lia|lia|]; replace (by_ t + dy + bh t - 1 - dy) with (by_ t + bh t - 1) by lia; exact A12|].
  intros r K. apply part_row in K; [|lia|lia]. apply A13 in K. lia.
Qed.
Lemma part_boxes s l : read_boxes a s l -> 0 <= s -> forall s' rest, s' <= s + dx -> s <= iw a -> (forall k, s' <= k < s + dx -> ~ col_has_ink c k) ->
  (forall s'', s'' <= dx + iw a -> (forall k, s'' <= k < dx + iw a -> ~ col_has_ink c k) -> read_boxes c s'' rest) -> read_boxes c s' (map (moved dx dy) l ++ rest).
Proof.
  induction 1 as [s N|s t l T R IH]; intros H0 s' rest Hs Hw N' K; cbn [map app].
  - apply K; [lia|]. intros k Hk C. destruct (Z.ltb_spec k (s + dx)) as [Q|Q]; [exact (N' k ltac:(lia) C)|]. replace k with (k - dx + dx) in C by lia. apply part_col in C; [|lia].
    destruct (Z.eq_dec (k - dx) (iw a - 1)) as [E|E]; [rewrite E in C; exact (part_last C)|]. apply (N (k - dx)); [lia|exact C].
  - constructor; [exact (part_tight s s' t H0 T Hs N')|]. cbn [moved bx bw]. unfold tight_box in T. apply IH; [lia|lia|lia|intros k Hk; lia|exact K].
Qed.
Lemma part_char t im : 0 <= bx t -> bx t + bw t <= iw a -> 0 <= by_ t -> by_ t + bh t <= ih a -> (char_image c (moved dx dy t) im <-> char_image a t im).
Proof.
  intros H1 H2 H3 H4. destruct F as (X & Y & W & H & P & I & L). unfold char_image. cbn [moved bx by_ bw bh].
  split; intros (Q1 & Q2 & Q3 & Q4); (split; [exact Q1|]; split; [exact Q2|]; split; [exact Q3|]); intros i j Hi Hj; rewrite (Q4 i j Hi Hj).
  - rewrite <- P by lia. f_equal; lia.
  - rewrite <- P by lia. f_equal; lia.
Qed.
End Part.

Lemma read_inside img s l : read_boxes img s l -> 0 <= s -> Forall (fun t => 0 <= bx t /\ 0 < bw t /\ bx t + bw t < iw img /\ 0 <= by_ t /\ by_ t + bh t <= ih img) l.
Proof. induction 1 as [s N|s t l T R IH]; intros H0; constructor; unfold tight_box in T; [lia|]. apply IH. lia. Qed.

Lemma row_after s l : in_a_row s l -> Forall (fun p => 0 <= iw (snd p)) l -> forall dx dy a, In (dx, dy, a) l -> s <= dx.
Proof.
  induction 1 as [s|s dx dy a l Hs R IH]; intros W dx' dy' a' H; [destruct H|]. inversion W as [|? ? W1 W2]; subst. cbn [snd] in W1. destruct H as [[= <- <- <-]|H]; [exact Hs|]. pose proof (IH W2 _ _ _ H). lia.
Qed.
Definition segmented (p : part) (l : list box) : Prop := segment (snd p) = Ok l.
Section Composed.
Context (c : image) (parts : list part) (F : composed c parts) (Sc : box_searchable c) (Sp : Forall (fun p => box_searchable (snd p)) parts).
Lemma composed_boxes ls : Forall2 segmented parts ls -> read_boxes c 0 (placed parts ls).
Proof.
  intros HS. destruct F as (St & Ro & Co).
  assert (Co' : forall x y, ink c x y = true -> 0 <= x -> exists dx dy a, In (dx, dy, a) parts /\ dx <= x < dx + iw a) by (intros x y I _; exact (Co x y I)).
  clear F Co. enough (G : forall s', s' <= 0 -> (forall k, s' <= k < 0 -> ~ col_has_ink c k) -> read_boxes c s' (placed parts ls)) by (apply G; [lia|intros k Hk; lia]).
  revert St Ro Co' Sp. generalize 0 at 1 2 3 4 as s. intros s St Ro Co Sp'. revert s Ro Co. induction HS as [|[[dx dy] a] l parts' ls' E HS IH]; intros s Ro Co s' Hs N.
  - constructor. intros k Hk (y & K). destruct (Z.ltb_spec k s) as [Q|Q]; [exact (N k ltac:(lia) (ex_intro _ y K))|]. destruct (Co k y K Q) as (? & ? & ? & [] & _).
  - inversion St as [|? ? St1 St2]; subst. inversion Sp' as [|? ? Sp1 Sp2]; subst. cbn [snd] in Sp1. inversion Ro as [|? ? ? ? ? R1 R2]; subst.
    assert (W : Forall (fun p : part => 0 <= iw (snd p)) parts') by (eapply Forall_impl; [|exact Sp2]; intros p (_ & ? & _); lia).
    unfold segmented in E. cbn [snd] in E. destruct (segment_ok a Sp1) as (l' & E' & R). rewrite E in E'. injection E' as <-.
    unfold placed. cbn [combine map List.concat]. apply (part_boxes c dx dy a St1 0 l R ltac:(lia)); [lia|destruct Sp1 as (_ & ? & _); lia| |].
    + intros k Hk (y & K). destruct (Z.ltb_spec k s) as [Q|Q]; [exact (N k ltac:(lia) (ex_intro _ y K))|]. destruct (Co k y K Q) as (dx' & dy' & a' & [[= <- <- <-]|H] & B); [lia|].
      pose proof (row_after _ _ R2 W _ _ _ H). destruct Sp1 as (_ & ? & _). lia.
    + intros s'' Hs'' N''. apply (IH St2 Sp2 (dx + iw a) R2); [|exact Hs''|exact N'']. intros x y K Q. destruct (Co x y K) as (dx' & dy' & a' & [[= <- <- <-]|H] & B).
      * destruct Sp1 as (_ & ? & _). lia.
      * lia.
      * exists dx', dy', a'. auto.
Qed.
Theorem composed_segment ls : Forall2 segmented parts ls -> segment c = Ok (placed parts ls).
Proof. intros HS. destruct (segment_ok c Sc) as (l & E & R). rewrite E. f_equal. exact (read_boxes_unique c 0 l R _ (composed_boxes ls HS)). Qed.
Theorem composed_chars ls imss : Forall2 segmented parts ls -> Forall2 (fun '(p, l) ims => Forall2 (char_image (snd p)) l ims) (combine parts ls) imss ->
  Forall2 (char_image c) (placed parts ls) (List.concat imss).
Proof.
  destruct F as (St & _). clear F. intros HS. revert St Sp imss. induction HS as [|[[dx dy] a] l parts' ls' E HS IH]; intros St Sp' imss HC; cbn [combine] in HC; inversion HC as [|? ims ? imss' C1 C2]; subst; [constructor|].
  inversion St as [|? ? St1 St2]; subst. inversion Sp' as [|? ? Sp1 Sp2]; subst. cbn [snd] in *. unfold placed. cbn [combine map List.concat]. apply Forall2_app; [|apply IH; assumption].
  unfold segmented in E. cbn [snd] in E. destruct (segment_ok a Sp1) as (l' & E' & R). rewrite E in E'. injection E' as <-. pose proof (read_inside a 0 l R ltac:(lia)) as In. clear - C1 In St1.
  induction C1 as [|t im l ims H1 C1 IH]; cbn [map]; constructor; inversion In as [|? ? I1 I2]; subst; [|auto]. refine (proj2 (part_char c dx dy a St1 t im _ _ _ _) H1); lia.
Qed.
End Composed.

(** * The programs that learn *)
Lemma text_words_blanks p r ws : blanks p -> text_words r ws -> text_words (p ++ r) ws.
Proof.
  intros B H. destruct H as [q Q|q w Q W|q w c r ws Q W C R].
  - constructor. intros x Hx. apply in_app_or in Hx. destruct Hx; auto.
  - rewrite app_assoc. constructor; [|exact W]. intros x Hx. apply in_app_or in Hx. destruct Hx; auto.
  - rewrite app_assoc. constructor; try assumption. intros x Hx. apply in_app_or in Hx. destruct Hx; auto.
Qed.
Lemma text_words_app t ws c u vs : text_words t ws -> is_space c = true -> text_words u vs -> text_words (t ++ c :: u) (ws ++ vs).
Proof.
  intros H C U. assert (U' : text_words (c :: u) vs) by (apply (text_words_blanks [c] u vs); [intros x [<-|[]]; exact C|exact U]).
  induction H as [p B|p w B W|p w d r ws B W D R IH]; cbn [app].
  - apply text_words_blanks; assumption.
  - rewrite <- app_assoc. constructor; assumption.
  - rewrite <- !app_assoc. cbn [app]. constructor; assumption.
Qed.
Lemma text_words_spoken texts wss : Forall2 text_words texts wss -> text_words (in_turn texts) (List.concat wss).
Proof.
  induction 1 as [|t ws texts wss H F IH]; cbn [in_turn List.concat]; [constructor; intros ? []|]. destruct texts as [|u texts].
  - inversion F; subst. cbn [List.concat]. now rewrite app_nil_r.
  - change (t ++ str " " ++ in_turn (u :: texts)) with (t ++ 32 :: in_turn (u :: texts)). apply text_words_app; [exact H|reflexivity|exact IH].
Qed.
Lemma glyphs_for_unique img font boxes ws gs : glyphs_for img font boxes ws gs -> forall gs', glyphs_for img font boxes ws gs' -> gs = gs'.
Proof.
  induction 1 as [ws|boxes|b boxes w ws g gs H R IH]; intros gs' H'; inversion H' as [| |? ? ? ? g' gs'' K K']; subst; try reflexivity.
  f_equal; [|auto]. destruct H as (H1 & H2), K as (K1 & K2). destruct g as [im v], g' as [im' v']. cbn [gl_img gl_views] in *. subst. f_equal. exact (char_image_unique img b im im' H1 K1).
Qed.
Lemma glyphs_for_join img font b1 w1 g1 : glyphs_for img font b1 w1 g1 -> List.length b1 = List.length w1 -> forall b2 w2 g2, glyphs_for img font b2 w2 g2 -> glyphs_for img font (b1 ++ b2) (w1 ++ w2) (g1 ++ g2).
Proof.
  induction 1 as [ws|boxes|b boxes w ws g gs H R IH]; intros L b2 w2 g2 K; cbn [List.length] in L.
  - destruct ws; [exact K|discriminate].
  - destruct boxes; [exact K|discriminate].
  - cbn [app]. constructor; [exact H|]. apply IH; [congruence|exact K].
Qed.
Lemma glyphs_for_moved c dx dy a font l ws gs : stands c (dx, dy, a) -> Forall (fun t => 0 <= bx t /\ 0 < bw t /\ bx t + bw t < iw a /\ 0 <= by_ t /\ by_ t + bh t <= ih a) l ->
  glyphs_for a font l ws gs -> glyphs_for c font (map (moved dx dy) l) ws gs.
Proof.
  intros St In H. induction H as [ws|boxes|b boxes w ws g gs H R IH]; cbn [map]; try constructor; inversion In as [|? ? I1 I2]; subst; [|auto].
  destruct H as (H1 & H2). split; [|exact H2]. refine (proj2 (part_char c dx dy a St b (gl_img g) _ _ _ _) H1); lia.
Qed.
Lemma learning_learnt {A B} (l : list A) (ws : list B) : learning_end l ws = Learnt -> List.length l = List.length ws.
Proof. unfold learning_end. destruct (Nat.compare_spec (List.length l) (List.length ws)); congruence. Qed.
Lemma learning_equal {A B} (l : list A) (ws : list B) : List.length l = List.length ws -> learning_end l ws = Learnt.
Proof. intros E. unfold learning_end. rewrite E, Nat.compare_refl. reflexivity. Qed.
Theorem composed_learn c parts font tos : composed c parts -> box_searchable c -> Forall (fun p => box_searchable (snd p)) parts ->
  Forall2 (fun p to => learn_image (snd p) (fst to) font = Ok (snd to, Learnt)) parts tos ->
  learn_image c (in_turn (map fst tos)) font = Ok (List.concat (map snd tos), Learnt).
Proof.
  intros F Sc Sp H.
  assert (G : exists ls wss gss, Forall2 segmented parts ls /\ Forall2 text_words (map fst tos) wss /\ List.concat (map snd tos) = write_glyphs (List.concat gss) /\
     List.length (placed parts ls) = List.length (List.concat wss) /\ glyphs_for c font (placed parts ls) (List.concat wss) (List.concat gss)).
  { destruct F as (St & _). clear Sc. revert St Sp. induction H as [|[[dx dy] a] [t o] parts tos E H IH]; intros St Sp.
    - exists [], [], []. split; [constructor|]. split; [constructor|]. split; [reflexivity|]. split; [reflexivity|]. apply gf_no_box.
    - inversion St as [|? ? St1 St2]; subst. inversion Sp as [|? ? Sp1 Sp2]; subst. cbn [snd fst] in *. destruct (IH St2 Sp2) as (ls & wss & gss & A1 & A2 & A3 & A4 & A5). clear IH.
      destruct (segment_ok a Sp1) as (l & El & R). destruct (text_words_total t) as (ws & Hw). destruct (learn_image_ok a t font l ws Sp1 El Hw) as (gs & Hg & E'). rewrite E in E'. injection E' as -> E'.
      symmetry in E'. apply learning_learnt in E'. exists (l :: ls), (ws :: wss), (gs :: gss). split; [constructor; assumption|]. split; [constructor; assumption|].
      split; [cbn [map List.concat]; rewrite A3; unfold write_glyphs; rewrite flat_map_app; reflexivity|]. unfold placed in *. cbn [combine map List.concat].
      split; [rewrite !app_length, map_length, A4, E'; reflexivity|]. apply glyphs_for_join; [|rewrite map_length; exact E'|exact A5].
      apply (glyphs_for_moved c dx dy a font l ws gs St1 (read_inside a 0 l R ltac:(lia)) Hg). }
  destruct G as (ls & wss & gss & A1 & A2 & A3 & A4 & A5). pose proof (composed_segment c parts F Sc Sp ls A1) as Es.
  destruct (learn_image_ok c (in_turn (map fst tos)) font _ _ Sc Es (text_words_spoken _ _ A2)) as (gs & Hg & ->). rewrite (glyphs_for_unique _ _ _ _ _ Hg _ A5), A3, (learning_equal _ _ A4). reflexivity.
Qed.
Theorem composed_show c parts outs : composed c parts -> box_searchable c -> Forall (fun p => box_searchable (snd p)) parts ->
  Forall2 (fun p o => show_characters (snd p) = Ok o) parts outs -> show_characters c = Ok (List.concat outs).
Proof.
  intros F Sc Sp H.
  assert (G : exists ls imss, Forall2 segmented parts ls /\ Forall2 (fun '(p, l) ims => Forall2 (char_image (snd p)) l ims) (combine parts ls) imss /\ List.concat outs = frames (List.concat imss)).
  { clear F Sc. revert Sp. induction H as [|[[dx dy] a] o parts outs E H IH]; intros Sp.
    - exists [], []. split; [constructor|]. split; [constructor|]. reflexivity.
    - inversion Sp as [|? ? Sp1 Sp2]; subst. cbn [snd] in *. destruct (IH Sp2) as (ls & imss & A1 & A2 & A3). destruct (segment_ok a Sp1) as (l & El & _). destruct (show_characters_ok a l Sp1 El) as (ims & C & E').
      rewrite E in E'. injection E' as ->. exists (l :: ls), (ims :: imss). split; [constructor; assumption|]. split; [cbn [combine]; constructor; assumption|]. cbn [List.concat]. rewrite A3. unfold frames. now rewrite flat_map_app. }
  destruct G as (ls & imss & A1 & A2 & A3). pose proof (composed_segment c parts F Sc Sp ls A1) as Es. destruct (show_characters_ok c _ Sc Es) as (ims & C & ->).
  rewrite (char_image_same c _ _ _ C (composed_chars c parts F Sp ls imss A1 A2)), A3. reflexivity.
Qed.

(** * Checking examples *)
Definition stands_check (c : image) (p : part) : bool :=
  let '(dx, dy, a) := p in
  (0 <=? dx) && (0 <=? dy) && (dx + iw a <=? iw c) && (dy + ih a <=? ih c) &&
  forallb (fun x => forallb (fun y => same_pix (pix c (x + dx) (y + dy)) (pix a x y)) (zrange (ih a))) (zrange (iw a)) &&
  forallb (fun x => forallb (fun y => negb (ink c x y) || negb ((dx <=? x) && (x <? dx + iw a)) || ((dy <=? y) && (y <? dy + ih a))) (zrange (ih c))) (zrange (iw c)) &&
  forallb (fun y => negb (ink a (iw a - 1) y)) (zrange (ih a)).
Fixpoint row_check (s : Z) (l : list part) : bool := match l with [] => true | (dx, dy, a) :: l' => (s <=? dx) && row_check (dx + iw a) l' end.
Definition composed_check (c : image) (parts : list part) : bool :=
  forallb (stands_check c) parts && row_check 0 parts &&
  forallb (fun x => forallb (fun y => negb (ink c x y) || existsb (fun '(dx, dy, a) => (dx <=? x) && (x <? dx + iw a)) parts) (zrange (ih c))) (zrange (iw c)).
Lemma stands_checked c p : stands_check c p = true -> stands c p.
Proof.
  destruct p as [[dx dy] a]. unfold stands_check, stands. rewrite !andb_true_iff, !forallb_forall, !Z.leb_le. intros ((((((A & B) & C) & D) & E) & G) & H).
  split; [exact A|]. split; [exact B|]. split; [exact C|]. split; [exact D|]. split; [|split].
  - intros x y Hx Hy. pose proof (E x (proj2 (zrange_In _ _) Hx)) as E1. rewrite forallb_forall in E1. specialize (E1 y (proj2 (zrange_In _ _) Hy)). unfold same_pix in E1.
    destruct (pix c (x + dx) (y + dy)) as [p|], (pix a x y) as [q|]; try discriminate; [|reflexivity]. apply Z.eqb_eq in E1. congruence.
  - intros x y Hx I. pose proof (ink_inside c x y I) as J. assert (J1 : 0 <= x < iw c) by lia. assert (J2 : 0 <= y < ih c) by lia. pose proof (G x (proj2 (zrange_In _ _) J1)) as G1. rewrite forallb_forall in G1. specialize (G1 y (proj2 (zrange_In _ _) J2)). rewrite I in G1. cbn [negb orb] in G1.
    lia.
  - intros y. destruct (ink a (iw a - 1) y) eqn:I; [|reflexivity]. pose proof (ink_inside a _ _ I) as J. assert (J2 : 0 <= y < ih a) by lia. specialize (H y (proj2 (zrange_In _ _) J2)). rewrite I in H. discriminate.
Qed.
Lemma row_checked l : forall s, row_check s l = true -> in_a_row s l.
Proof. induction l as [|[[dx dy] a] l IH]; intros s H; cbn [row_check] in H; constructor; apply andb_true_iff in H; [lia|apply IH, H]. Qed.
Lemma composed_checked c parts : composed_check c parts = true -> composed c parts.
Proof.
  unfold composed_check, composed. rewrite !andb_true_iff. intros ((A & B) & C). split; [apply Forall_forall; intros p Hp; rewrite forallb_forall in A; apply stands_checked, A, Hp|]. split; [exact (row_checked _ _ B)|].
  intros x y I. pose proof (ink_inside c x y I) as J. assert (J1 : 0 <= x < iw c) by lia. assert (J2 : 0 <= y < ih c) by lia. rewrite forallb_forall in C. pose proof (C x (proj2 (zrange_In _ _) J1)) as C1. rewrite forallb_forall in C1. specialize (C1 y (proj2 (zrange_In _ _) J2)). rewrite I in C1. cbn [negb orb] in C1.
  apply existsb_exists in C1. destruct C1 as ([[dx dy] a] & Hp & Q). exists dx, dy, a. split; [exact Hp|]. lia.
Qed.
