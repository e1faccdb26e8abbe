(** Margins: proofs. *)
From Verif Require Import Base BaseProofs ProofTools ImageModel ImageSpec ImageProofs BoxModel BoxSpec BoxProofs SortModel TrieProofs StratModel ZoneModel DatasModel
  StreamModel GlyphIoModel DatasIoModel DictIoModel PnmModel TrieModel IndexModel FloatModel RecogModel GlyphsModel FilterModel FilterSpec FilterProofs ExtractModel ExtractSpec ExtractProofs
  AssembleModel PipelineModel LearnModel ShowModel SpellModel Ocr6Model Ocr6Proofs4 Ocr8Model MarginSpec.

(** Outcomes of the same kind, with related results. *)
Definition agree {A B} (R : A -> B -> Prop) (r : res A) (r' : res B) : Prop :=
  match r, r' with
  | Ok a, Ok b => R a b
  | Throw e, Throw e' => e = e'
  | UB, UB => True
  | NoFuel, NoFuel => True
  | _, _ => False
  end.
Lemma agree_eq {A} (r r' : res A) : agree eq r r' -> r = r'.
Proof. destruct r, r'; cbn; intros H; try contradiction; congruence. Qed.
Lemma agree_refl {A} (R : A -> A -> Prop) (r : res A) : (forall a, R a a) -> agree R r r.
Proof. intros H. destruct r; cbn; auto. Qed.
Lemma agree_bind {A B C D} (R : A -> B -> Prop) (Q : C -> D -> Prop) r r' k k' : agree R r r' -> (forall a b, R a b -> agree Q (k a) (k' b)) -> agree Q (bind r k) (bind r' k').
Proof. intros H K. destruct r, r'; cbn in *; try contradiction; auto. Qed.

(** * Tight boxes *)
Lemma tight_unique img s t t' : tight_box img s t -> tight_box img s t' -> t = t'.
Proof.
  destruct t as [x y w h], t' as [x' y' w' h']. unfold tight_box. cbn [bx by_ bw bh].
  intros (A1 & A2 & A3 & A4 & A5 & A6 & A7 & A8 & A9 & A10 & A11 & A12 & A13) (B1 & B2 & B3 & B4 & B5 & B6 & B7 & B8 & B9 & B10 & B11 & B12 & B13).
  assert (x = x').
  { destruct (Z.lt_trichotomy x x') as [L|[E|L]]; [exfalso; apply (B5 x); [lia|exact A4]|exact E|exfalso; apply (A5 x'); [lia|exact B4]]. }
  subst x'.
  assert (w = w').
  { destruct (Z.lt_trichotomy w w') as [L|[E|L]]; [|exact E|]; exfalso.
    - apply A8; [lia|]. apply B7. lia.
    - apply B8; [lia|]. apply A7. lia. }
  subst w'. pose proof (A13 _ B11). pose proof (A13 _ B12). pose proof (B13 _ A11). pose proof (B13 _ A12).
  assert (y = y') by lia. subst y'. assert (h = h') by lia. subst h'. reflexivity.
Qed.
Lemma tight_exclusive img s t : tight_box img s t -> ~ (forall c, s <= c < iw img - 1 -> ~ col_has_ink img c).
Proof. unfold tight_box. intros (A1 & A2 & A3 & A4 & _ & A6 & _) H. apply (H (bx t)); [lia|exact A4]. Qed.
Lemma read_boxes_unique img s l : read_boxes img s l -> forall l', read_boxes img s l' -> l = l'.
Proof.
  induction 1 as [s N|s t rest T R IH]; intros l' H'.
  - inversion H' as [|? t' rest' T' R']; subst; [reflexivity|]. exfalso. exact (tight_exclusive _ _ _ T' N).
  - inversion H' as [? N'|? t' rest' T' R']; subst; [exfalso; exact (tight_exclusive _ _ _ T N')|].
    rewrite (tight_unique _ _ _ _ T T') in *. f_equal. apply IH. exact R'.
Qed.

Section Framed.
Context (dx dy : Z) (a b : image) (F : framed dx dy a b).

Lemma framed_ink x y : ink b x y = ink a (x - dx) (y - dy).
Proof.
  destruct F as (X & Y & W & H & P & I & L).
  destruct ((0 <=? x - dx) && (x - dx <? iw a) && (0 <=? y - dy) && (y - dy <? ih a)) eqn:E.
  - unfold ink. replace (pix b x y) with (pix a (x - dx) (y - dy)); [reflexivity|]. rewrite <- P by lia. f_equal; lia.
  - transitivity false.
    + destruct (ink b x y) eqn:B; [|reflexivity]. apply I in B. lia.
    + unfold ink, pix. rewrite E. reflexivity.
Qed.
Lemma framed_col c : col_has_ink b c <-> col_has_ink a (c - dx).
Proof.
  unfold col_has_ink. split.
  - intros (y & H). rewrite framed_ink in H. eauto.
  - intros (y & H). exists (y + dy). rewrite framed_ink. replace (y + dy - dy) with y by lia. exact H.
Qed.
Lemma framed_linked c : col_linked b c <-> col_linked a (c - dx).
Proof.
  unfold col_linked. split.
  - intros (y & y' & H1 & H2 & H3). rewrite framed_ink in H1, H2. exists (y - dy), (y' - dy). replace (c - dx + 1) with (c + 1 - dx) by lia. split; [exact H1|]. split; [exact H2|lia].
  - intros (y & y' & H1 & H2 & H3). exists (y + dy), (y' + dy). rewrite !framed_ink. replace (y + dy - dy) with y by lia. replace (y' + dy - dy) with y' by lia.
    replace (c + 1 - dx) with (c - dx + 1) by lia. split; [exact H1|]. split; [exact H2|lia].
Qed.
Lemma framed_row x0 x1 r : row_has_ink b x0 x1 r <-> row_has_ink a (x0 - dx) (x1 - dx) (r - dy).
Proof.
  unfold row_has_ink. split.
  - intros (x & H1 & H2). rewrite framed_ink in H2. exists (x - dx). split; [lia|exact H2].
  - intros (x & H1 & H2). exists (x + dx). rewrite framed_ink. replace (x + dx - dx) with x by lia. split; [lia|exact H2].
Qed.
Lemma framed_last : ~ col_has_ink a (iw a - 1).
Proof. destruct F as (_ & _ & _ & _ & _ & _ & L). intros (y & H). rewrite L in H. discriminate. Qed.

Lemma tight_moved s s' t : tight_box a s t -> s' <= s + dx -> (forall c, s' <= c < s + dx -> ~ col_has_ink b c) -> tight_box b s' (moved dx dy t).
Proof.
  intros T Hs N. destruct F as (X & Y & W & H & P & I & L). unfold tight_box in *. unfold moved. cbn [bx by_ bw bh].
  destruct T as (A1 & A2 & A3 & A4 & A5 & A6 & A7 & A8 & A9 & A10 & A11 & A12 & A13).
  replace (bx t + dx + bw t) with (bx t + bw t + dx) by lia.
  split; [lia|]. split; [lia|]. split; [lia|]. split; [apply framed_col; replace (bx t + dx - dx) with (bx t) by lia; exact A4|].
  split; [intros c Hc; destruct (Z.ltb_spec c (s + dx)); [apply N; lia|rewrite framed_col; apply A5; lia]|].
  split; [lia|]. split; [intros c Hc; apply framed_linked, A7; lia|].
  split.
  { intros _ K. apply framed_linked in K. replace (bx t + bw t + dx - 1 - dx) with (bx t + bw t - 1) in K by lia.
    destruct (Z.ltb_spec (bx t + bw t) (iw a - 1)) as [Q|Q]; [exact (A8 Q K)|]. destruct K as (y & y' & _ & K & _).
    apply framed_last. exists y'. replace (iw a - 1) with (bx t + bw t - 1 + 1) by lia. exact K. }
  split; [lia|]. split; [lia|].
  split; [apply framed_row; replace (bx t + dx - dx) with (bx t) by lia; replace (bx t + bw t + dx - dx) with (bx t + bw t) by lia; replace (by_ t + dy - dy) with (by_ t) by lia; exact A11|].
  split; [apply framed_row; replace (bx t + dx - dx) with (bx t) by lia; replace (bx t + bw t + dx - dx) with (bx t + bw t) by lia; replace (by_ t + dy + bh t - 1 - dy) with (by_ t + bh t - 1) by lia; exact A12|].
  intros r K. apply framed_row in K. replace (bx t + dx - dx) with (bx t) in K by lia. replace (bx t + bw t + dx - dx) with (bx t + bw t) in K by lia. apply A13 in K. lia.
Qed.
Lemma read_boxes_moved s l : read_boxes a s l -> forall s', s' <= s + dx -> (forall c, s' <= c < s + dx -> ~ col_has_ink b c) -> read_boxes b s' (map (moved dx dy) l).
Proof.
  induction 1 as [s N|s t rest T R IH]; intros s' Hs N'; cbn [map].
  - constructor. intros c Hc K. destruct (Z.ltb_spec c (s + dx)) as [Q|Q]; [apply (N' c); [lia|exact K]|]. apply framed_col in K.
    assert (c - dx < iw a) by (destruct K as (y & K); apply ink_inside in K; lia).
    destruct (Z.eq_dec (c - dx) (iw a - 1)) as [E|E]; [rewrite E in K; exact (framed_last K)|]. apply (N (c - dx)); [lia|exact K].
  - constructor; [exact (tight_moved s s' t T Hs N')|]. cbn [moved bx bw]. apply IH; [lia|]. intros c Hc. lia.
Qed.
Lemma before_blank c : c < dx -> ~ col_has_ink b c.
Proof. destruct F as (_ & _ & _ & _ & _ & I & _). intros H (y & K). apply I in K. lia. Qed.

Context (Sa : box_searchable a) (Sb : box_searchable b).
Theorem segment_moved boxes : segment a = Ok boxes -> segment b = Ok (map (moved dx dy) boxes).
Proof.
  intros E. destruct (segment_ok a Sa) as (l & E1 & R). rewrite E in E1. injection E1 as <-. destruct (segment_ok b Sb) as (l' & E2 & R'). rewrite E2. f_equal.
  apply (read_boxes_unique b 0 l' R'). apply (read_boxes_moved 0 boxes R); [destruct F; lia|]. intros c Hc. apply before_blank. lia.
Qed.
Lemma section_moved s t : tight_box a s t -> 0 <= s -> section b (bx t + dx) (by_ t + dy) (bw t) (bh t) = section a (bx t) (by_ t) (bw t) (bh t).
Proof.
  intros T Hs. destruct F as (X & Y & W & H & P & I & L). unfold tight_box in T.
  destruct (section_law a (bx t) (by_ t) (bw t) (bh t) (proj1 Sa)) as (r & -> & Wr & w & h & Q); try lia.
  destruct (section_law b (bx t + dx) (by_ t + dy) (bw t) (bh t) (proj1 Sb)) as (r' & -> & Wr' & w' & h' & Q'); try lia.
  f_equal. apply image_ext; [exact (wf_full _ Wr')|exact (wf_full _ Wr)|]. split; [congruence|]. split; [congruence|]. intros i j.
  destruct ((0 <=? i) && (i <? bw t) && (0 <=? j) && (j <? bh t)) eqn:B.
  - rewrite Q, Q' by lia. rewrite <- P by lia. f_equal; lia.
  - unfold pix. rewrite w, h, w', h', B. reflexivity.
Qed.

(** * Loops over the characters *)
(** The boxes found in both pictures, from the columns x and x'. *)
Inductive twin (P : Z -> Z -> box -> Prop) : Z -> Z -> list box -> Prop :=
| twin_end x x' t t' : make_box_character a x 0 (iw a) (ih a) = Ok t -> box_bool t = false -> make_box_character b x' 0 (iw b) (ih b) = Ok t' -> box_bool t' = false ->
    twin P x x' []
| twin_next x x' t rest : make_box_character a x 0 (iw a) (ih a) = Ok t -> box_bool t = true -> make_box_character b x' 0 (iw b) (ih b) = Ok (moved dx dy t) ->
    tight_box a x t -> 0 <= x -> 0 <= x' -> x' <= bx t + dx -> 0 < bw t -> bx t + bw t < iw a -> P x x' t -> twin P (bx t + bw t) (bx t + bw t + dx) rest -> twin P x x' (t :: rest).
Lemma scans_twin (P : Z -> Z -> box -> Prop) (HP : forall x t, P x (x + dx) t) x boxes : scan a x boxes -> forall x', scan b x' (map (moved dx dy) boxes) ->
  match boxes with [] => True | t :: _ => P x x' t end -> twin P x x' boxes.
Proof.
  induction 1 as [x t Et Bt|x t rest Et Bt T H0 H1 H2 H3 Sc IH]; intros x' S' HP'.
  - cbn [map] in S'. inversion S' as [? t' Et' Bt'|]; subst. econstructor; eassumption.
  - cbn [map] in S'. inversion S' as [|? t' rest' Et' Bt' T' G0 G1 G2 G3 S'']; subst. cbn [moved bx bw] in *. econstructor; try eassumption.
    replace (bx t + dx + bw t) with (bx t + bw t + dx) in S'' by lia. apply IH; [exact S''|]. destruct rest; [exact I|apply HP].
Qed.
Section Loop.
Context {St St' R R' : Type} (xof : St -> Z) (xof' : St' -> Z) (body : box -> St -> res (St + R)) (body' : box -> St' -> res (St' + R'))
  (P : Z -> Z -> box -> Prop) (rel : St -> St' -> Prop) (out : R -> R' -> Prop).
Definition steps (q : St + R) (q' : St' + R') (x x' : Z) : Prop :=
  match q, q' with
  | inl s, inl s' => rel s s' /\ xof s = x /\ xof' s' = x'
  | inr r, inr r' => out r r'
  | _, _ => False
  end.
Context (Hend : forall s s' t t', rel s s' -> box_bool t = false -> box_bool t' = false -> agree (fun q q' => match q, q' with inr r, inr r' => out r r' | _, _ => False end) (body t s) (body' t' s'))
  (Hnext : forall s s' t, rel s s' -> box_bool t = true -> tight_box a (xof s) t -> 0 <= xof s -> 0 <= xof' s' -> xof' s' <= bx t + dx -> bx t + bw t < iw a -> P (xof s) (xof' s') t ->
     agree (fun q q' => steps q q' (bx t + bw t) (bx t + bw t + dx)) (body t s) (body' (moved dx dy t) s')).
Lemma twin_loop x x' boxes : twin P x x' boxes -> forall fuel fuel' s s', rel s s' -> xof s = x -> xof' s' = x' -> x <= iw a -> x' <= iw b ->
  iw a - x < Z.of_nat fuel -> iw b - x' < Z.of_nat fuel' ->
  agree out (loop fuel (fun s => cbox <- make_box_character a (xof s) 0 (iw a) (ih a) ;; body cbox s) s)
            (loop fuel' (fun s => cbox <- make_box_character b (xof' s) 0 (iw b) (ih b) ;; body' cbox s) s').
Proof.
  induction 1 as [x x' t t' Et Bt Et' Bt'|x x' t rest Et Bt Et' T X0 X1 X2 X3 X4 PP Tw IH]; intros fuel fuel' s s' Rs Ex Ex' L L' Hf Hf';
    (destruct fuel as [|fuel]; [lia|]); (destruct fuel' as [|fuel']; [lia|]); cbn [loop]; rewrite Ex, Ex', Et, Et'; cbn [bind].
  - pose proof (Hend s s' t t' Rs Bt Bt') as A. destruct (body t s) as [[]| | |], (body' t' s') as [[]| | |]; cbn in A; try contradiction; exact A.
  - assert (A : agree (fun q q' => steps q q' (bx t + bw t) (bx t + bw t + dx)) (body t s) (body' (moved dx dy t) s')).
    { apply Hnext; try (rewrite Ex); try (rewrite Ex'); try assumption. }
    destruct (body t s) as [[s1|r]| | |], (body' (moved dx dy t) s') as [[s1'|r']| | |]; cbn in A; try contradiction; try exact A.
    destruct A as (R1 & E1 & E1'). assert (T' := T). unfold tight_box in T'. destruct F as (F1 & _ & F2 & _). apply IH; try assumption; lia.
Qed.
End Loop.
Lemma twin_boxes (P : Z -> Z -> box -> Prop) boxes : (forall x t, P x (x + dx) t) -> segment a = Ok boxes -> match boxes with [] => True | t :: _ => P 0 0 t end -> twin P 0 0 boxes.
Proof. intros HP E H0. apply scans_twin; [exact HP|exact (scan_segment a boxes Sa E)|exact (scan_segment b _ Sb (segment_moved boxes E))|exact H0]. Qed.
Lemma wa_small : 1 <= iw a /\ iw a < 2147483648.
Proof. destruct Sa as (_ & ? & ? & ?). nia. Qed.
Lemma wb_small : 1 <= iw b /\ iw b < 2147483648.
Proof. destruct Sb as (_ & ? & ? & ?). nia. Qed.

(** * The programs that learn *)
Lemma loop_ext {S T} (f g : S -> res (S + T)) : (forall s, f s = g s) -> forall n s, loop n f s = loop n g s.
Proof. intros H. induction n as [|n IH]; intros s; cbn [loop]; [reflexivity|]. rewrite H. destruct (g s) as [[]| | |]; auto. Qed.

Definition learn_body (img : image) (font : list Z) (cbox : box) : Z * list Z * istream * list Z -> res (Z * list Z * istream * list Z + list Z * learn_end) :=
  fun '(x, s, file, out) =>
       if box_bool cbox then
         newimg <- section img (bx cbox) (by_ cbox) (bw cbox) (bh cbox) ;;
         let '(s, file) := get_word s file in
         if is_ok file then
           Ok (inl (u32 (bx cbox + bw cbox), s, file,
                    out ++ write_glyph (mkglyph newimg [mkview s font 4294967295])))
         else Ok (inr (out, NoDefinition))
       else
         let '(_, file) := get_word s file in
         Ok (inr (out, if is_ok file then NoBox else Learnt)).
Definition learn_x (q : Z * list Z * istream * list Z) : Z := let '(x, _, _, _) := q in x.
Definition learn_rel (q q' : Z * list Z * istream * list Z) : Prop := let '(_, s, file, out) := q in let '(_, s', file', out') := q' in s = s' /\ file = file' /\ out = out'.
Theorem learn_moved text font : learn_image b text font = learn_image a text font.
Proof.
  destruct (segment_ok a Sa) as (boxes & E & _). pose proof (twin_boxes (fun _ _ _ => True) boxes (fun _ _ => I) E ltac:(destruct boxes; exact I)) as Tw.
  pose proof wa_small as (W1 & W2). pose proof wb_small as (W3 & W4).
  symmetry. apply agree_eq.
  assert (X : forall img, learn_image img text font = loop (S (Z.to_nat (iw img))) (fun q => cbox <- make_box_character img (learn_x q) 0 (iw img) (ih img) ;; learn_body img font cbox q) (0, [], open_stream text, [])).
  { intros img. unfold learn_image. apply loop_ext. intros [[[x s] file] out]. reflexivity. }
  rewrite !X. apply (twin_loop learn_x learn_x (learn_body a font) (learn_body b font) (fun _ _ _ => True) learn_rel eq) with (x := 0) (x' := 0) (boxes := boxes); try assumption; try reflexivity; try lia.
  - intros [[[x s] file] out] [[[x' s'] file'] out'] t t' (<- & <- & <-) B B'. unfold learn_body. rewrite B, B'. destruct (get_word s file) as [w f]. cbn. reflexivity.
  - intros [[[x s] file] out] [[[x' s'] file'] out'] t (<- & <- & <-) B T X0 X1 X2 X3 _. cbn [learn_x] in *. unfold learn_body. cbn [moved bx by_ bw bh].
    change (box_bool (moved dx dy t)) with (box_bool t). rewrite B, (section_moved _ _ T X0).
    destruct (section a (bx t) (by_ t) (bw t) (bh t)) as [im| | |]; cbn [bind]; try exact eq_refl; try exact I.
    destruct (get_word s file) as [w f]. destruct (is_ok f); [|exact eq_refl]. cbn [agree steps learn_rel learn_x].
    unfold tight_box in T. destruct F as (F1 & _ & F2 & _). rewrite !u32_small by lia. split; [auto|]. split; lia.
  - split; [reflexivity|]. split; reflexivity.
Qed.

Definition show_body (img : image) (cbox : box) : Z * list Z -> res (Z * list Z + list Z) :=
  fun '(x, out) =>
       if box_bool cbox then
         im <- section img (bx cbox) (by_ cbox) (bw cbox) (bh cbox) ;;
         t <- show_image im ;;
         Ok (inl (u32 (bx cbox + bw cbox), out ++ t ++ [10]))
       else Ok (inr out).
Theorem show_moved : show_characters b = show_characters a.
Proof.
  destruct (segment_ok a Sa) as (boxes & E & _). pose proof (twin_boxes (fun _ _ _ => True) boxes (fun _ _ => I) E ltac:(destruct boxes; exact I)) as Tw.
  pose proof wa_small as (W1 & W2). pose proof wb_small as (W3 & W4).
  symmetry. apply agree_eq.
  assert (X : forall img, show_characters img = loop (S (Z.to_nat (iw img))) (fun q => cbox <- make_box_character img (fst q) 0 (iw img) (ih img) ;; show_body img cbox q) (0, [])).
  { intros img. unfold show_characters. apply loop_ext. intros [x out]. reflexivity. }
  rewrite !X. apply (twin_loop (@fst Z (list Z)) (@fst Z (list Z)) (show_body a) (show_body b) (fun _ _ _ => True) (fun q q' => snd q = snd q') eq) with (x := 0) (x' := 0) (boxes := boxes); try assumption; try reflexivity; try lia.
  - intros [x out] [x' out'] t t' H B B'. cbn [snd] in H. subst out'. unfold show_body. rewrite B, B'. reflexivity.
  - intros [x out] [x' out'] t H B T X0 X1 X2 X3 _. cbn [snd fst] in *. subst out'. unfold show_body. cbn [moved bx by_ bw bh].
    change (box_bool (moved dx dy t)) with (box_bool t). rewrite B, (section_moved _ _ T X0).
    destruct (section a (bx t) (by_ t) (bw t) (bh t)) as [im| | |]; cbn [bind]; try exact eq_refl; try exact I.
    destruct (show_image im) as [u| | |]; cbn [bind]; try exact eq_refl; try exact I. cbn [agree steps fst snd].
    unfold tight_box in T. destruct F as (F1 & _ & F2 & _). rewrite !u32_small by lia. split; [auto|]. split; lia.
Qed.

(** * The programs that read *)
Definition counted (s : lstate) : Prop := vsize (l_boxes s) <= l_x s /\ vsize (l_amb s) = vsize (l_boxes s).
Definition line_rel (s s' : lstate) : Prop :=
  l_boxes s' = map (moved dx dy) (l_boxes s) /\ (l_spaces s' = l_spaces s \/ (l_spaces s' = 0 :: l_spaces s /\ Forall (fun k => 0 < k) (l_spaces s))) /\
  l_cache s' = l_cache s /\ l_store s' = l_store s /\ l_amb s' = l_amb s /\ l_cx s' = l_cx s /\ counted s.
Definition start_rel (s s' : lstate) : Prop := line_rel s s' /\ l_x s <= iw a /\
  (l_x s' = l_x s + dx /\ 1 <= vsize (l_boxes s) \/ (l_x s = 0 /\ l_x s' = 0 /\ l_boxes s = [] /\ l_spaces s = [] /\ l_spaces s' = [])).
Lemma vsize_map {A B} (f : A -> B) l : vsize (map f l) = vsize l.
Proof. unfold vsize. now rewrite map_length. Qed.
Lemma vsize_snoc {A} (l : list A) x : vsize (l ++ [x]) = vsize l + 1.
Proof. unfold vsize. rewrite app_length. cbn [List.length]. lia. Qed.
Definition first_only (t : box) (s s' : lstate) : Prop := (4 <? bx t) = (4 <? bx t + dx) -> l_x s = 0 -> l_boxes s = [] -> l_spaces s' = l_spaces s.
Lemma char_step_moved e s s' t : start_rel s s' -> tight_box a (l_x s) t -> 0 <= l_x s -> 0 <= l_x s' -> l_x s' <= bx t + dx -> bx t + bw t < iw a ->
  agree (fun q q' => start_rel q q' /\ l_x q = bx t + bw t /\ l_x q' = bx t + bw t + dx /\ l_boxes q = l_boxes s ++ [t] /\
     ((l_spaces s = l_spaces s' /\ (l_boxes s <> [] \/ (4 <? bx t) = (4 <? bx t + dx))) -> l_spaces q' = l_spaces q)) (char_step e a s t) (char_step e b s' (moved dx dy t)).
Proof.
  intros ((R1 & R2 & R3 & R4 & R5 & R6 & R7) & R9 & R8) T X0 X1 X2 X3. pose proof wa_small as (W1 & W2). pose proof wb_small as (W3 & W4). assert (F' := F). destruct F' as (F1 & _ & F2 & _).
  unfold char_step. cbn [moved bx by_ bw bh]. rewrite (section_moved _ _ T X0). assert (T' := T). unfold tight_box in T'. destruct R7 as (R7 & R7'). pose proof (vsize_nonneg (l_boxes s)) as Vn.
  rewrite R1, R3, R4, R5, R6, vsize_map, (u32_small (l_x s + 4)), (u32_small (l_x s' + 4)), (u32_small (bx t + bw t)), (u32_small (bx t + dx + bw t)), (u32_small (vsize (l_boxes s))) by lia.
  cbv zeta.
  set (sp := if l_x s + 4 <? bx t then l_spaces s ++ [vsize (l_boxes s)] else l_spaces s).
  set (sp' := if l_x s' + 4 <? bx t + dx then l_spaces s' ++ [vsize (l_boxes s)] else l_spaces s').
  assert (A : (sp' = sp \/ (sp' = 0 :: sp /\ Forall (fun k => 0 < k) sp)) /\ ((l_spaces s = l_spaces s' /\ (l_boxes s <> [] \/ (4 <? bx t) = (4 <? bx t + dx))) -> sp' = sp)).
  { unfold sp, sp'. destruct R8 as [(R8 & R10)|(R10 & R11 & R12 & R13 & R14)].
    - replace (l_x s' + 4 <? bx t + dx) with (l_x s + 4 <? bx t) by (destruct (Z.ltb_spec (l_x s + 4) (bx t)), (Z.ltb_spec (l_x s' + 4) (bx t + dx)); lia || reflexivity).
      destruct R2 as [->|(-> & Fp)]; [split; auto|]. split.
      + right. destruct (_ <? _); [|auto]. split; [reflexivity|]. apply Forall_app. split; [exact Fp|]. constructor; [lia|constructor].
      + intros (K & _). exfalso. apply (f_equal (@List.length Z)) in K. cbn [List.length] in K. lia.
    - rewrite R10, R11, R12, R13, R14. change (vsize (@nil box)) with 0. cbn [app]. rewrite !Z.add_0_l. destruct (Z.ltb_spec 4 (bx t)), (Z.ltb_spec 4 (bx t + dx)); try lia; split; auto.
      intros (_ & [K|K]); [congruence|discriminate]. }
  destruct A as (A1 & A2).
  eapply agree_bind; [apply (agree_refl eq); reflexivity|]. intros im ? <-. eapply agree_bind; [apply (agree_refl eq); reflexivity|]. intros it ? <-.
  destruct it as [r|].
  - cbn [agree l_x l_spaces l_boxes]. split; [|split; [lia|]; split; [lia|]; split; [reflexivity|exact A2]]. unfold start_rel, line_rel, counted. cbn [l_x l_boxes l_spaces l_cache l_store l_amb l_cx]. rewrite map_app, !vsize_snoc.
    split; [split; [reflexivity|]; split; [exact A1|]; repeat split; lia|]. split; [lia|]. left. lia.
  - eapply agree_bind; [apply (agree_refl eq); reflexivity|]. intros [l cx] ? <-. eapply agree_bind; [apply (agree_refl eq); reflexivity|]. intros key ? <-.
    eapply agree_bind; [apply (agree_refl eq); reflexivity|]. intros c ? <-.
    cbn [agree l_x l_spaces l_boxes]. split; [|split; [lia|]; split; [lia|]; split; [reflexivity|exact A2]]. unfold start_rel, line_rel, counted. cbn [l_x l_boxes l_spaces l_cache l_store l_amb l_cx]. rewrite map_app, !vsize_snoc.
    split; [split; [reflexivity|]; split; [exact A1|]; repeat split; lia|]. split; [lia|]. left. lia.
Qed.
Definition full_rel (same : Prop) (s s' : lstate) : Prop := line_rel s s' /\ l_x s < 4294967296 /\ (same -> l_spaces s' = l_spaces s).
Lemma read_line_rel e cx boxes : segment a = Ok boxes -> agree (full_rel (same_indent dx boxes)) (read_line e a cx) (read_line e b cx).
Proof.
  intros E. pose proof (twin_boxes (fun x _ t => x = 0 -> match boxes with [] => False | u :: _ => True end) boxes) as Tw.
  pose proof wa_small as (W1 & W2). pose proof wb_small as (W3 & W4).
  assert (Tw0 : twin (fun _ _ _ => True) 0 0 boxes) by (apply twin_boxes; [auto|exact E|destruct boxes; exact I]). clear Tw.
  set (P := fun (x x' : Z) (t : box) => x = 0 -> match boxes with [] => False | u :: _ => bx u = bx t end).
  assert (Hb : forall t rest x x', twin (fun _ _ _ => True) x x' rest -> boxes = t :: rest -> 0 < x -> twin P x x' rest).
  { intros t rest x x' Tw _ Hx. revert Hx. induction Tw as [x x' u u' Et Bt Et' Bt'|x x' u rest Et Bt Et' T X0 X1 X2 X3 X4 PP Tw IH]; intros Hx; [econstructor; eassumption|].
    econstructor; try eassumption; [unfold P; lia|]. apply IH. unfold tight_box in T. lia. }
  assert (Tw : twin P 0 0 boxes).
  { destruct boxes as [|t rest]; inversion Tw0; subst; [econstructor; eassumption|]. econstructor; try eassumption; [unfold P; auto|]. eapply Hb; [eassumption|reflexivity|].
    match goal with H : tight_box a 0 t |- _ => unfold tight_box in H; lia end. }
  apply (twin_loop l_x l_x (fun cbox s => if box_bool cbox then s' <- char_step e a s cbox ;; Ok (inl s') else Ok (inr s)) (fun cbox s => if box_bool cbox then s' <- char_step e b s cbox ;; Ok (inl s') else Ok (inr s))
    P (fun s s' => start_rel s s' /\ (same_indent dx boxes -> l_spaces s' = l_spaces s)) (full_rel (same_indent dx boxes))) with (x := 0) (x' := 0) (boxes := boxes); try assumption; try reflexivity; try lia.
  - intros s s' t t' ((H & H1 & _) & H2) B B'. rewrite B, B'. split; [exact H|]. split; [lia|exact H2].
  - intros s s' t (H & H') B T X0 X1 X2 X3 PP. change (box_bool (moved dx dy t)) with (box_bool t). rewrite B.
    eapply agree_bind; [exact (char_step_moved e s s' t H T X0 X1 X2 X3)|]. intros q q' (H1 & H2 & H3 & _ & H4). cbn [agree steps]. split; [|split; assumption]. split; [exact H1|]. intros Si. apply H4. split; [symmetry; apply H', Si|].
    destruct H as (_ & _ & [(_ & K)|(K & _)]); [left; intros Z; rewrite Z in K; change (vsize (@nil box)) with 0 in K; lia|]. right. specialize (PP K).
    destruct boxes as [|u rest]; [contradiction|]. cbn [same_indent] in Si. rewrite PP in Si. destruct F as (F1 & _). destruct (Z.ltb_spec 4 (bx t)), (Z.ltb_spec 4 (bx t + dx)); lia || reflexivity.
  - split; [|reflexivity]. unfold start_rel, line_rel, counted. cbn [l_x l_boxes l_spaces l_cache l_store l_amb l_cx map]. change (vsize (@nil box)) with 0. change (vsize (@nil Z)) with 0. split; [split; [reflexivity|]; split; [now left|]; repeat split; lia|]. split; [lia|]. right. auto.
Qed.
Lemma line_boxes e cx boxes s : segment a = Ok boxes -> read_line e a cx = Ok s -> l_boxes s = boxes.
Proof.
  intros E Es. pose proof (scan_segment a boxes Sa E) as Sc. pose proof wa_small as (W1 & W2). unfold read_line in Es.
  enough (G : forall x l, scan a x l -> forall fuel s0, l_x s0 = x -> 0 <= x -> loop fuel (fun s => cbox <- make_box_character a (l_x s) 0 (iw a) (ih a) ;; if box_bool cbox then s' <- char_step e a s cbox ;; Ok (inl s') else Ok (inr s)) s0 = Ok s -> l_boxes s = l_boxes s0 ++ l).
  { refine (G 0 boxes Sc _ (mkls 0 [] [] [] [] [] cx) eq_refl _ Es). lia. }
  clear Sc Es E boxes. induction 1 as [x t Et Bt|x t rest Et Bt T H0 H1 H2 H3 Sc IH]; intros fuel s0 Ex Hx; (destruct fuel as [|fuel]; [discriminate|]); cbn [loop]; rewrite Ex, Et; cbn [bind]; rewrite Bt.
  - intros [= <-]. now rewrite app_nil_r.
  - destruct (char_step e a s0 t) as [s1| | |] eqn:E1; cbn [bind]; try discriminate. intros Es.
    assert (K : l_x s1 = bx t + bw t /\ l_boxes s1 = l_boxes s0 ++ [t]).
    { unfold char_step in E1. destruct (section _ _ _ _ _) as [im| | |]; cbn [bind] in E1; try discriminate. destruct (cache_find _ _) as [[r|]| | |]; cbn [bind] in E1; try discriminate.
      - injection E1 as <-. cbn [l_x l_boxes]. rewrite u32_small by lia. auto.
      - destruct (recognise_img _ _ _ _) as [[l cx']| | |]; cbn [bind] in E1; try discriminate. destruct (clone im) as [key| | |]; cbn [bind] in E1; try discriminate.
        destruct (cache_emplace _ _ _) as [c| | |]; cbn [bind] in E1; try discriminate. injection E1 as <-. cbn [l_x l_boxes]. rewrite u32_small by lia. auto. }
    destruct K as (K1 & K2). rewrite (IH fuel s1 K1 ltac:(lia) Es), K2, <- app_assoc. reflexivity.
Qed.

(** The other programs: the breaks are elements of the list, and the first may be
    there in one picture only. *)
Definition line_rel6 (s s' : state6) : Prop :=
  (q_amb s' = q_amb s \/ q_amb s' = [str " "] :: q_amb s) /\ q_r1 s' = q_r1 s /\ q_r2 s' = q_r2 s /\ q_cache s' = q_cache s /\ q_store s' = q_store s.
Definition start_rel6 (s s' : state6) : Prop := line_rel6 s s' /\ (q_x s' = q_x s + dx \/ (q_x s = 0 /\ q_x s' = 0 /\ q_amb s = [] /\ q_amb s' = [])).
Lemma step6_moved rec s s' t : start_rel6 s s' -> tight_box a (q_x s) t -> 0 <= q_x s -> 0 <= q_x s' -> q_x s' <= bx t + dx -> bx t + bw t < iw a ->
  agree (fun q q' => start_rel6 q q' /\ q_x q = bx t + bw t /\ q_x q' = bx t + bw t + dx) (step6 rec a s t) (step6 rec b s' (moved dx dy t)).
Proof.
  intros ((R1 & R2 & R3 & R4 & R5) & R6) T X0 X1 X2 X3. pose proof wa_small as (W1 & W2). pose proof wb_small as (W3 & W4). assert (F' := F). destruct F' as (F1 & _ & F2 & _).
  unfold step6. cbn [moved bx by_ bw bh]. rewrite (section_moved _ _ T X0). assert (T' := T). unfold tight_box in T'.
  rewrite R2, R3, R4, R5, (u32_small (q_x s + 4)), (u32_small (q_x s' + 4)), (u32_small (bx t + bw t)), (u32_small (bx t + dx + bw t)) by lia.
  cbv zeta.
  assert (A : forall l, (if q_x s' + 4 <? bx t + dx then q_amb s' ++ [[str " "]] else q_amb s') ++ [l] = (if q_x s + 4 <? bx t then q_amb s ++ [[str " "]] else q_amb s) ++ [l] \/
                 (if q_x s' + 4 <? bx t + dx then q_amb s' ++ [[str " "]] else q_amb s') ++ [l] = [str " "] :: (if q_x s + 4 <? bx t then q_amb s ++ [[str " "]] else q_amb s) ++ [l]).
  { intros l. destruct R6 as [R6|(R6 & R7 & R8 & R9)].
    - replace (q_x s' + 4 <? bx t + dx) with (q_x s + 4 <? bx t) by (destruct (Z.ltb_spec (q_x s + 4) (bx t)), (Z.ltb_spec (q_x s' + 4) (bx t + dx)); lia || reflexivity).
      destruct R1 as [->| ->]; [now left|right]. now destruct (_ <? _).
    - rewrite R6, R7, R8, R9. destruct (Z.ltb_spec (0 + 4) (bx t)), (Z.ltb_spec (0 + 4) (bx t + dx)); auto. lia. }
  eapply agree_bind; [apply (agree_refl eq); reflexivity|]. intros im ? <-. eapply agree_bind; [apply (agree_refl eq); reflexivity|]. intros it ? <-.
  destruct it as [r|].
  - eapply agree_bind; [apply (agree_refl eq); reflexivity|]. intros [w l] ? <-. eapply agree_bind; [apply (agree_refl eq); reflexivity|]. intros f ? <-.
    cbn [agree]. unfold start_rel6, line_rel6. cbn [q_x q_r1 q_r2 q_amb q_cache q_store]. split; [split; [split; [apply A|auto]|left; lia]|lia].
  - eapply agree_bind; [apply (agree_refl eq); reflexivity|]. intros f ? <-. eapply agree_bind; [apply (agree_refl eq); reflexivity|]. intros c ? <-.
    cbn [agree]. unfold start_rel6, line_rel6. cbn [q_x q_r1 q_r2 q_amb q_cache q_store]. split; [split; [split; [apply A|auto]|left; lia]|lia].
Qed.
Lemma read_line6_rel rec : agree line_rel6 (read_line6 rec a) (read_line6 rec b).
Proof.
  destruct (segment_ok a Sa) as (boxes & E & _). pose proof (twin_boxes (fun _ _ _ => True) boxes (fun _ _ => I) E ltac:(destruct boxes; exact I)) as Tw.
  pose proof wa_small as (W1 & W2). pose proof wb_small as (W3 & W4).
  apply (twin_loop q_x q_x (fun cbox s => if box_bool cbox then s' <- step6 rec a s cbox ;; Ok (inl s') else Ok (inr s)) (fun cbox s => if box_bool cbox then s' <- step6 rec b s cbox ;; Ok (inl s') else Ok (inr s))
    (fun _ _ _ => True) start_rel6 line_rel6) with (x := 0) (x' := 0) (boxes := boxes); try assumption; try reflexivity; try lia.
  - intros s s' t t' H B B'. rewrite B, B'. exact (proj1 H).
  - intros s s' t H B T X0 X1 X2 X3 _. change (box_bool (moved dx dy t)) with (box_bool t). rewrite B.
    eapply agree_bind; [exact (step6_moved rec s s' t H T X0 X1 X2 X3)|]. intros q q' H'. exact H'.
  - unfold start_rel6, line_rel6. cbn [q_x q_r1 q_r2 q_amb q_cache q_store]. auto 10.
Qed.
End Framed.

(** * The lines of text *)
Lemma split_at_length {A} (p : A -> bool) l : (List.length (fst (split_at p l)) + List.length (snd (split_at p l)) = List.length l)%nat.
Proof. induction l as [|x l IH]; cbn [split_at]; [reflexivity|]. destruct (p x); [reflexivity|]. destruct (split_at p l) as [u v]. cbn [fst snd List.length] in *. lia. Qed.
Definition assemble_body dict : list (list (list Z)) * list Z -> res (list (list (list Z)) * list Z + list Z) :=
  fun '(l, out) =>
       match l with
       | [] => Ok (inr out)
       | _ :: _ =>
         let '(word, rest) := split_at separator6 l in
         '(b, out) <- disambiguous dict word out ;;
         let out := if b : bool then out else append_fronts word out in
         let '(seps, rest) := split_at (fun e => negb (separator6 e)) rest in
         Ok (inl (rest, append_separators seps out))
       end.
Lemma assemble_fuel dict : forall n f f' l out, (List.length l < n)%nat -> (List.length l < f)%nat -> (List.length l < f')%nat -> loop f (assemble_body dict) (l, out) = loop f' (assemble_body dict) (l, out).
Proof.
  induction n as [|n IH]; intros f f' l out Hn Hf Hf'; [lia|]. destruct f as [|f]; [lia|]. destruct f' as [|f']; [lia|]. cbn [loop]. destruct l as [|e l]; [reflexivity|].
  unfold assemble_body at 1 3. pose proof (split_at_length separator6 (e :: l)) as L1. destruct (split_at separator6 (e :: l)) as [word rest] eqn:E1. cbn [fst snd] in L1.
  destruct (disambiguous dict word out) as [[bb o]| | |]; cbn [bind]; try reflexivity. cbv zeta.
  pose proof (split_at_length (fun e => negb (separator6 e)) rest) as L2. destruct (split_at (fun e => negb (separator6 e)) rest) as [seps rest'] eqn:E2. cbn [fst snd] in L2.
  assert (List.length rest' < List.length (e :: l))%nat.
  { cbn [split_at] in E1. destruct (separator6 e) eqn:Se.
    - injection E1 as <- <-. cbn [split_at] in E2. rewrite Se in E2. cbn [negb] in E2. destruct (split_at (fun e0 => negb (separator6 e0)) l) as [u v]. injection E2 as <- <-. cbn [List.length] in *. lia.
    - destruct (split_at separator6 l) as [u v]. injection E1 as <- <-. cbn [List.length] in *. lia. }
  apply IH; lia.
Qed.
Lemma assemble6_indent dict amb : assemble6 dict ([str " "] :: amb) = assemble6 dict amb.
Proof.
  unfold assemble6. change (snd (split_at (fun e => negb (separator6 e)) ([str " "] :: amb))) with (snd (let '(x, y) := split_at (fun e => negb (separator6 e)) amb in ([str " "] :: x, y))).
  pose proof (split_at_length (fun e => negb (separator6 e)) amb) as L. destruct (split_at (fun e => negb (separator6 e)) amb) as [u v]. cbn [snd fst] in *.
  apply (assemble_fuel dict (S (List.length v))); cbn [List.length]; lia.
Qed.

Theorem extract6_moved rt glyphs datas x y dict : same_line x y -> extract_text6 rt glyphs datas y dict = extract_text6 rt glyphs datas x dict.
Proof.
  intros (dx & dy & a & b & Ea & Eb & Sa & Sb & F). symmetry. apply agree_eq. unfold extract_text6. rewrite Ea, Eb. eapply agree_bind; [apply (agree_refl eq); reflexivity|]. intros [nodes e] ? <-. cbn [bind].
  eapply agree_bind; [exact (read_line6_rel dx dy a b F Sa Sb (recognise6 e))|]. intros s s' ([R1|R1] & R2 & R3 & _); rewrite R1, R2, R3, ?assemble6_indent; apply (agree_refl eq); reflexivity.
Qed.
Theorem extract8_moved rt glyphs datas x y dict : same_line x y -> extract_text8 rt glyphs datas y dict = extract_text8 rt glyphs datas x dict.
Proof.
  intros (dx & dy & a & b & Ea & Eb & Sa & Sb & F). symmetry. apply agree_eq. unfold extract_text8. rewrite Ea, Eb. eapply agree_bind; [apply (agree_refl eq); reflexivity|]. intros [nodes e] ? <-. cbn [bind].
  eapply agree_bind; [exact (read_line6_rel dx dy a b F Sa Sb (recognise8 e))|]. intros s s' ([R1|R1] & R2 & R3 & _); rewrite R1, R2, R3, ?assemble6_indent; apply (agree_refl eq); reflexivity.
Qed.

(** * The lines of writing *)
Lemma skip_runs_ext p p' : (forall v, p v = p' v) -> forall n out rest c, skip_runs n p out rest c = skip_runs n p' out rest c.
Proof.
  intros H. induction n as [|n IH]; intros out rest c; [reflexivity|]. cbn [skip_runs]. destruct rest as [|v l]; [reflexivity|]. destruct (split_run (ov_word v) l) as [run rest']. cbv zeta.
  destruct rest' as [|w r]; [reflexivity|]. rewrite H. destruct (p' w) as [[]| | |]; cbn [bind]; auto.
Qed.
Lemma keep_runs_ext p p' : (forall v, p v = p' v) -> forall n out rest c, keep_runs n p out rest c = keep_runs n p' out rest c.
Proof.
  intros H. induction n as [|n IH]; intros out rest c; [reflexivity|]. cbn [keep_runs]. destruct rest as [|v l]; [reflexivity|]. destruct (split_run (ov_word v) l) as [run rest'].
  rewrite H. destruct (p' v) as [[]| | |]; cbn [bind]; auto.
Qed.
Lemma filter_line_ext p p' vec : (forall v, p v = p' v) -> filter_line p vec = filter_line p' vec.
Proof.
  intros H. unfold filter_line. destruct vec as [|v l]; [reflexivity|]. destruct (split_run (ov_word v) l) as [run rest]. destruct rest as [|w r]; [reflexivity|].
  rewrite H. destruct (p' (last (v :: run) v)) as [[]| | |]; cbn [bind]; try reflexivity; [apply keep_runs_ext, H|]. rewrite (skip_runs_ext p p' H).
  destruct (skip_runs _ p' _ _ _) as [[[o r'] c]| | |]; cbn [bind]; try reflexivity. apply keep_runs_ext, H.
Qed.

Section Rows.
Context (dx dy : Z) (Hdy : 0 <= dy).
Local Notation mv := (moved dx dy).
Definition low (t : box) : Prop := 0 <= by_ t /\ 0 < bh t /\ by_ t + bh t + dy < 4294967295.
Lemma top_moved t : box_top (mv t) = box_top t + dy. Proof. reflexivity. Qed.
Lemma low_bottom t : low t -> box_bottom t = by_ t + bh t - 1.
Proof. intros (A & B & C). unfold box_bottom. apply u32_small. lia. Qed.
Lemma bottom_moved t : low t -> box_bottom (mv t) = box_bottom t + dy.
Proof. intros L. rewrite (low_bottom t L). destruct L as (A & B & C). unfold box_bottom, moved. cbn [by_ bh]. rewrite u32_small by lia. lia. Qed.
Lemma line_pred_moved f y l : 0 <= y -> y + dy < 4294967295 -> 0 <= l -> l + dy < 4294967295 -> line_pred f (y + dy) (l + dy) = line_pred f y l.
Proof.
  intros H1 H2 H3 H4. unfold line_pred. rewrite !u32_small by lia.
  destruct (f =? 1); [destruct (Z.leb_spec (l + dy) (y + dy + 1)), (Z.leb_spec l (y + 1)); lia || reflexivity|].
  destruct (f =? 2); [destruct (Z.ltb_spec (y + dy) (l + dy)), (Z.ltb_spec y l); try lia; f_equal; lia|].
  destruct (f =? 4); [destruct (Z.leb_spec (y + dy) (l + dy + 1)), (Z.leb_spec y (l + 1)); lia || reflexivity|].
  destruct (f =? 3); [destruct (Z.ltb_spec (l + dy) (y + dy + 1)), (Z.ltb_spec l (y + 1)); lia || reflexivity|].
  destruct (f =? 6); [destruct (Z.ltb_spec (y + dy) (l + dy + 1)), (Z.ltb_spec y (l + 1)); lia || reflexivity|reflexivity].
Qed.
Lemma contradicts_moved infos field y l v : 0 <= y -> y + dy < 4294967295 -> 0 <= l -> l + dy < 4294967295 -> contradicts infos field (y + dy) (l + dy) v = contradicts infos field y l v.
Proof. intros H1 H2 H3 H4. unfold contradicts. destruct (infos_get infos (ov_word v)) as [[wi|]| | |]; cbn [bind]; try reflexivity. now rewrite line_pred_moved by lia. Qed.

Section Hist.
Context (Y : list Z -> list Z -> Prop) (mt : Z) (ok : box -> Prop) (HY : forall ys ys' t, ok t -> Y ys ys' -> agree Y (incr ys (u32 (box_top t - mt))) (incr ys' (u32 (box_top t - mt)))).
Lemma baseline_moved infos line amb : 0 <= line -> line + dy < 4294967295 -> forall boxes, Forall (fun t => low t /\ ok t) boxes -> forall st ys ys' has, Y ys ys' ->
  agree (fun q q' => let '(s, y, h) := q in let '(s', y', h') := q' in s = s' /\ Y y y' /\ h = h')
    (filter_baseline infos line mt st amb boxes ys has) (filter_baseline infos (line + dy) (mt + dy) st amb (map mv boxes) ys' has).
Proof.
  intros L1 L2. induction amb as [|r amb IH]; intros boxes B st ys ys' has Hy; cbn [filter_baseline]; [cbn; auto|]. destruct boxes as [|t boxes]; [exact I|]. cbn [map].
  inversion B as [|? ? (B1 & B1') B2]; subst. assert (Bt := low_bottom t B1). rewrite (bottom_moved t B1), top_moved.
  eapply agree_bind; [apply (agree_refl eq); reflexivity|]. intros vec ? <-.
  rewrite (filter_line_ext (contradicts infos wl_base (box_bottom t + dy) (line + dy)) (contradicts infos wl_base (box_bottom t) line)) by (intros v; apply contradicts_moved; destruct B1; lia).
  eapply agree_bind; [apply (agree_refl eq); reflexivity|]. intros [vec' n] ? <-. eapply agree_bind; [apply (agree_refl eq); reflexivity|]. intros st1 ? <-.
  eapply agree_bind with (R := fun q q' => Y (fst q) (fst q') /\ snd q = snd q').
  - destruct (n =? 1); [|cbn; auto]. eapply agree_bind; [apply (agree_refl eq); reflexivity|]. intros v ? <-. eapply agree_bind; [apply (agree_refl eq); reflexivity|]. intros [wi|] ? <-; [|cbn; auto].
    destruct (_ && _); [|cbn; auto]. replace (box_top t + dy - (mt + dy)) with (box_top t - mt) by lia. eapply agree_bind; [apply HY; [exact B1'|exact Hy]|]. intros y y' Hyy. cbn. auto.
  - intros [y h] [y' h'] (Hyy & Hh). cbn [fst snd] in *. subst h'. apply IH; assumption.
Qed.
End Hist.
Lemma meanline_moved infos line amb : 0 <= line -> line + dy < 4294967295 -> forall boxes, Forall low boxes -> forall st,
  filter_meanline infos (line + dy) st amb (map mv boxes) = filter_meanline infos line st amb boxes.
Proof.
  intros L1 L2. induction amb as [|r amb IH]; intros boxes B st; cbn [filter_meanline]; [reflexivity|]. destruct boxes as [|t boxes]; [reflexivity|]. cbn [map].
  inversion B as [|? ? B1 B2]; subst. rewrite top_moved. destruct (rd st r) as [vec| | |]; cbn [bind]; try reflexivity.
  rewrite (filter_line_ext (contradicts infos wl_mean (box_top t + dy) (line + dy)) (contradicts infos wl_mean (box_top t) line)) by (intros v; apply contradicts_moved; unfold box_top; destruct B1; lia).
  destruct (filter_line _ vec) as [[vec' n]| | |]; cbn [bind]; try reflexivity. destruct (wr st r vec') as [st1| | |]; cbn [bind]; try reflexivity. now apply IH.
Qed.
Lemma count_moved ys mb boxes : Forall low boxes -> count_bottoms ys (mb + dy) (map mv boxes) = count_bottoms ys mb boxes.
Proof.
  intros B. revert ys. induction B as [|t boxes B1 B2 IH]; intros ys; cbn [map count_bottoms]; [reflexivity|]. rewrite (bottom_moved t B1). replace (box_bottom t + dy - (mb + dy)) with (box_bottom t - mb) by lia.
  destruct (incr ys _) as [y| | |]; cbn [bind]; auto.
Qed.
Lemma min_max_moved boxes : Forall low boxes -> forall mt xt mb xb, exists mt' xt' mb' xb', min_max_boxes (mt, xt, mb, xb) boxes = (mt', xt', mb', xb') /\
  min_max_boxes (mt + dy, xt + dy, mb + dy, xb + dy) (map mv boxes) = (mt' + dy, xt' + dy, mb' + dy, xb' + dy).
Proof.
  induction 1 as [|t boxes B1 B2 IH]; intros mt xt mb xb; cbn [map min_max_boxes]; [do 4 eexists; split; reflexivity|].
  rewrite (bottom_moved t B1), top_moved, Z.add_min_distr_r, Z.add_max_distr_r, Z.add_min_distr_r, Z.add_max_distr_r. apply IH.
Qed.
Lemma max_index_le l : 0 <= max_index l <= Z.max 0 (vsize l - 1).
Proof.
  assert (G : forall l i best v, 0 <= best < i -> 0 <= max_pos i best v l < i + vsize l).
  { induction l0 as [|x l0 IH]; intros i best v H; cbn [max_pos]; [unfold vsize; cbn [List.length]; lia|]. rewrite vsize_cons. destruct (v <? x); [specialize (IH (i + 1) i x ltac:(lia))|specialize (IH (i + 1) best v ltac:(lia))]; lia. }
  destruct l as [|v l]; cbn [max_index]; [unfold vsize; cbn; lia|]. rewrite vsize_cons. pose proof (vsize_nonneg l). specialize (G l 1 0 v ltac:(lia)). lia.
Qed.

Lemma lines_moved2 infos st amb t u boxes : Forall low (t :: u :: boxes) -> filter_by_lines infos st amb (map mv (t :: u :: boxes)) = filter_by_lines infos st amb (t :: u :: boxes).
Proof.
  intros B. assert (Sm : small_boxes (t :: u :: boxes)).
  { intros x Hx. rewrite Forall_forall in B. specialize (B x Hx). unfold small_box. rewrite (low_bottom x B). unfold box_top. destruct B. lia. }
  destruct (lens t (u :: boxes) Sm ltac:(discriminate)) as (mt & xt & mb & xb & M & _ & _ & P & Q & R1 & R2 & R3 & R4 & E1 & E2).
  assert (Hx : xt + dy < 4294967295 /\ xb + dy < 4294967295).
  { unfold min_max_box in M. destruct (min_max_boxes_ok _ _ _ _ _ _ _ _ _ M) as (_ & Xt & _ & Xb).
    assert (Q1 : forall x, In x (t :: u :: boxes) -> box_top x + dy < 4294967295 /\ box_bottom x + dy < 4294967295 /\ 0 <= box_top x /\ 0 <= box_bottom x).
    { intros x Hx. rewrite Forall_forall in B. specialize (B x Hx). rewrite (low_bottom x B). unfold box_top. destruct B. lia. }
    destruct (fold_max (map box_top (u :: boxes)) 0) as (_ & _ & D1). destruct (fold_max (map box_bottom (u :: boxes)) 0) as (_ & _ & D2). rewrite <- Xt in D1. rewrite <- Xb in D2.
    pose proof (Q1 u ltac:(right; left; reflexivity)).
    split; [destruct D1 as [->|D1]; [lia|]; apply in_map_iff in D1; destruct D1 as (x & <- & Hx); apply (Q1 x); right; exact Hx|].
    destruct D2 as [->|D2]; [lia|]; apply in_map_iff in D2; destruct D2 as (x & <- & Hx); apply (Q1 x); right; exact Hx. }
  assert (M' : min_max_box (mv t) (map mv (u :: boxes)) = (mt + dy, xt + dy, mb + dy, xb + dy)).
  { inversion B as [|? ? B1 B23]; subst. inversion B23 as [|? ? B2 B3]; subst. assert (0 <= box_top u /\ 0 <= box_bottom u) by (rewrite (low_bottom u B2); unfold box_top; destruct B2; lia).
    unfold min_max_box in M |- *. cbn [map min_max_boxes] in M |- *. rewrite (bottom_moved t B1), (bottom_moved u B2), !top_moved.
    destruct (min_max_moved boxes B3 (Z.min (box_top t) (box_top u)) (Z.max 0 (box_top u)) (Z.min (box_bottom t) (box_bottom u)) (Z.max 0 (box_bottom u))) as (p & q & r & s & G1 & G2).
    rewrite M in G1. injection G1 as <- <- <- <-. rewrite <- G2. f_equal. f_equal; [f_equal; [f_equal; lia|lia]|lia]. }
  assert (E1' : bottom_len (mv t) (map mv (u :: boxes)) = bottom_len t (u :: boxes)) by (unfold bottom_len; rewrite M', M; f_equal; lia).
  assert (E2' : top_len (mv t) (map mv (u :: boxes)) = top_len t (u :: boxes)) by (unfold top_len; rewrite M', M; f_equal; lia).
  symmetry. apply agree_eq. cbn [map]. unfold filter_by_lines, buffer_len. change (mv u :: map mv boxes) with (map mv (u :: boxes)). rewrite M, M', E1', E2'. cbv zeta.
  change (mv t :: map mv (u :: boxes)) with (map mv (t :: u :: boxes)). rewrite count_moved by exact B.
  eapply agree_bind; [apply (agree_refl eq); reflexivity|]. intros ys ? <-.
  pose proof (max_index_le (firstn (Z.to_nat (bottom_len t (u :: boxes))) ys)) as I1.
  assert (V1 : vsize (firstn (Z.to_nat (bottom_len t (u :: boxes))) ys) <= bottom_len t (u :: boxes)) by (unfold vsize; pose proof (firstn_le_length (Z.to_nat (bottom_len t (u :: boxes))) ys); lia).
  rewrite Z.add_assoc, !u32_small by lia.
  eapply agree_bind with (R := eq).
  - pose proof (baseline_moved eq mt (fun _ => True) ltac:(intros ? ? ? _ <-; apply (agree_refl eq); reflexivity) infos (max_index (firstn (Z.to_nat (bottom_len t (u :: boxes))) ys) + mb) amb ltac:(lia) ltac:(lia)
      (t :: u :: boxes) ltac:(eapply Forall_impl; [|exact B]; auto) st) as G.
    match goal with |- agree eq (filter_baseline _ _ _ _ _ _ ?y ?h) _ => specialize (G y y h eq_refl) end.
    destruct (filter_baseline _ _ mt _ _ _ _ _) as [[[s y] h]| | |], (filter_baseline _ _ (mt + dy) _ _ _ _ _) as [[[s' y'] h']| | |]; cbn in G |- *; try contradiction; try exact G. destruct G as (-> & -> & ->). reflexivity.
  - intros [[s1 y1] h1] ? <-. destruct h1; [|reflexivity].
    pose proof (max_index_le (firstn (Z.to_nat (top_len t (u :: boxes))) y1)) as I2.
    assert (V2 : vsize (firstn (Z.to_nat (top_len t (u :: boxes))) y1) <= top_len t (u :: boxes)) by (unfold vsize; pose proof (firstn_le_length (Z.to_nat (top_len t (u :: boxes))) y1); lia).
    rewrite Z.add_assoc, !u32_small by lia. rewrite meanline_moved by (lia || exact B). apply (agree_refl eq). reflexivity.
Qed.

(** A single character. *)
Definition peak (ys : list Z) : Prop := exists c m, ys = c :: repeat 0 m /\ 0 <= c.
Lemma peak_index k ys : peak ys -> max_index (firstn k ys) = 0.
Proof.
  intros (c & m & -> & Hc). destruct k as [|k]; [reflexivity|]. cbn [firstn max_index].
  assert (G : forall k m i, max_pos i 0 c (firstn k (repeat 0 m)) = 0).
  { induction k0 as [|k0 IH]; intros [|m0] i; cbn [firstn repeat max_pos]; try reflexivity. destruct (Z.ltb_spec c 0); [lia|]. apply IH. }
  apply G.
Qed.
Lemma peak_incr ys : peak ys -> exists ys', incr ys 0 = Ok ys' /\ peak ys'.
Proof.
  intros (c & m & -> & Hc). exists (u32 (c + 1) :: repeat 0 m). split; [|exists (u32 (c + 1)), m; split; [reflexivity|apply u32_nonneg]].
  unfold incr. change (rd (c :: repeat 0 m) 0) with (Ok c). cbn [bind]. rewrite wr_ok by (cbn [List.length]; lia). reflexivity.
Qed.
Lemma peak_reset n ys : peak ys -> (n <= List.length ys)%nat -> peak (repeat 0 n ++ skipn n ys).
Proof.
  intros (c & m & -> & Hc) Hn. cbn [List.length] in Hn. rewrite repeat_length in Hn. destruct n as [|n]; [exists c, m; split; [reflexivity|exact Hc]|]. exists 0, m. split; [|lia].
  cbn [repeat skipn app]. f_equal. replace m with (n + (m - n))%nat at 1 by lia. rewrite repeat_app, skipn_app, skipn_all2, repeat_length, Nat.sub_diag by (rewrite repeat_length; lia).
  cbn [app skipn]. rewrite <- repeat_app. f_equal. lia.
Qed.
Lemma single_buffer t : low t -> ~ (by_ t = 1 /\ bh t = 1) -> 1 <= buffer_len t [].
Proof.
  intros L N. unfold buffer_len, bottom_len, top_len. cbn [min_max_box min_max_boxes]. rewrite (low_bottom t L). unfold box_top. destruct L as (A & B & C).
  assert (Z1 : forall x, 0 <= x < 4294967296 -> x <> 1 -> 1 <= u32 (0 - x + 1)).
  { intros x Hx Nx. unfold u32. destruct (Z.eq_dec x 0) as [->|N0]; [reflexivity|]. replace (0 - x + 1) with (4294967297 - x + -1 * 4294967296) by lia. rewrite Z.mod_add, Z.mod_small by lia. lia. }
  destruct (Z.eq_dec (by_ t) 1) as [E|E].
  - specialize (Z1 (by_ t + bh t - 1) ltac:(lia) ltac:(lia)). lia.
  - specialize (Z1 (by_ t) ltac:(lia) E). lia.
Qed.
Lemma single_count t : low t -> ~ (by_ t = 1 /\ bh t = 1) -> exists ys, count_bottoms (repeat 0 (Z.to_nat (buffer_len t []))) (box_bottom t) [t] = Ok ys /\ peak ys /\ Z.of_nat (List.length ys) = buffer_len t [].
Proof.
  intros L N. pose proof (single_buffer t L N) as K. cbn [count_bottoms]. replace (box_bottom t - box_bottom t) with 0 by lia. change (u32 0) with 0.
  assert (V : peak (repeat 0 (Z.to_nat (buffer_len t [])))).
  { destruct (Z.to_nat (buffer_len t [])) as [|m] eqn:E; [lia|]. exists 0, m. split; [reflexivity|lia]. }
  destruct (peak_incr _ V) as (ys & E & P). exists ys. rewrite E. cbn [bind]. split; [reflexivity|]. split; [exact P|].
  assert (vsize ys = vsize (repeat 0 (Z.to_nat (buffer_len t [])))).
  { destruct (incr_ok (repeat 0 (Z.to_nat (buffer_len t []))) 0) as (ys' & E' & E2); [unfold vsize; rewrite repeat_length; lia|]. rewrite E in E'. injection E' as <-. exact E2. }
  unfold vsize in H. rewrite H, repeat_length. lia.
Qed.
Lemma low_zero t : low t -> 0 <= box_bottom t < 4294967295 /\ 0 <= box_top t < 4294967295 /\ box_bottom t + dy < 4294967295 /\ box_top t + dy < 4294967295.
Proof. intros L. rewrite (low_bottom t L). unfold box_top. destruct L. lia. Qed.
Lemma lines_moved1 infos st amb t : low t -> ~ (by_ t = 1 /\ bh t = 1) -> ~ (by_ t + dy = 1 /\ bh t = 1) ->
  filter_by_lines infos st amb [mv t] = filter_by_lines infos st amb [t].
Proof.
  intros L N N'. destruct (low_zero t L) as (Z1 & Z2 & Z3 & Z4).
  assert (L' : 0 <= by_ (mv t) /\ 0 < bh (mv t) /\ by_ (mv t) + bh (mv t) < 4294967295) by (cbn [moved by_ bh]; destruct L; lia).
  destruct (single_count t L N) as (ys & E & P & V).
  assert (E0 : exists ys', count_bottoms (repeat 0 (Z.to_nat (buffer_len (mv t) []))) (box_bottom (mv t)) [mv t] = Ok ys' /\ peak ys' /\ Z.of_nat (List.length ys') = buffer_len (mv t) []).
  { pose proof (bottom_moved t L) as Bm. assert (K : 1 <= buffer_len (mv t) []).
    { unfold buffer_len, bottom_len, top_len. cbn [min_max_box min_max_boxes]. rewrite Bm, top_moved, (low_bottom t L). unfold box_top. destruct L as (A & B & C).
      assert (Z1' : forall x, 0 <= x < 4294967296 -> x <> 1 -> 1 <= u32 (0 - x + 1)).
      { intros x Hx Nx. unfold u32. destruct (Z.eq_dec x 0) as [->|N0]; [reflexivity|]. replace (0 - x + 1) with (4294967297 - x + -1 * 4294967296) by lia. rewrite Z.mod_add, Z.mod_small by lia. lia. }
      destruct (Z.eq_dec (by_ t + dy) 1) as [Q|Q].
      - specialize (Z1' (by_ t + bh t - 1 + dy) ltac:(lia) ltac:(lia)). lia.
      - specialize (Z1' (by_ t + dy) ltac:(lia) Q). lia. }
    cbn [count_bottoms]. replace (box_bottom (mv t) - box_bottom (mv t)) with 0 by lia. change (u32 0) with 0.
    assert (VV : peak (repeat 0 (Z.to_nat (buffer_len (mv t) [])))).
    { destruct (Z.to_nat (buffer_len (mv t) [])) as [|m] eqn:Em; [lia|]. exists 0, m. split; [reflexivity|lia]. }
    destruct (peak_incr _ VV) as (zs & Ez & Pz). exists zs. rewrite Ez. cbn [bind]. split; [reflexivity|]. split; [exact Pz|].
    assert (H : vsize zs = vsize (repeat 0 (Z.to_nat (buffer_len (mv t) [])))).
    { destruct (incr_ok (repeat 0 (Z.to_nat (buffer_len (mv t) []))) 0) as (zs' & Ez' & E2); [unfold vsize; rewrite repeat_length; lia|]. rewrite Ez in Ez'. injection Ez' as <-. exact E2. }
    unfold vsize in H. rewrite H, repeat_length. lia. }
  destruct E0 as (ys' & E' & P' & V').
  symmetry. apply agree_eq. unfold filter_by_lines. cbn [min_max_box min_max_boxes]. cbv zeta. rewrite E, E'. cbn [bind]. rewrite (peak_index _ _ P), (peak_index _ _ P'), (bottom_moved t L), top_moved, !Z.add_0_l, !u32_small by lia.
  pose proof (peak_reset (Z.to_nat (Z.min (bottom_len t []) (top_len t []))) ys P) as Q.
  pose proof (peak_reset (Z.to_nat (Z.min (bottom_len (mv t) []) (top_len (mv t) []))) ys' P') as Q'.
  assert (B1 : (Z.to_nat (Z.min (bottom_len t []) (top_len t [])) <= List.length ys)%nat) by (unfold buffer_len in V; lia).
  assert (B1' : (Z.to_nat (Z.min (bottom_len (mv t) []) (top_len (mv t) [])) <= List.length ys')%nat) by (unfold buffer_len in V'; lia).
  specialize (Q B1). specialize (Q' B1'). change [mv t] with (map mv [t]).
  pose proof (baseline_moved (fun y y' => peak y /\ peak y') (box_top t) (fun u => u = t)) as G.
  assert (HY : forall y y' u, u = t -> peak y /\ peak y' -> agree (fun y y' => peak y /\ peak y') (incr y (u32 (box_top u - box_top t))) (incr y' (u32 (box_top u - box_top t)))).
  { intros y y' u -> (Py & Py'). replace (box_top t - box_top t) with 0 by lia. change (u32 0) with 0. destruct (peak_incr y Py) as (z & -> & Pz). destruct (peak_incr y' Py') as (z' & -> & Pz'). cbn. auto. }
  specialize (G HY infos (box_bottom t) amb ltac:(lia) ltac:(lia) [t] ltac:(constructor; [auto|constructor]) st _ _ false (conj Q Q')).
  eapply agree_bind; [exact G|]. intros [[s1 y1] h1] [[s1' y1'] h1'] (<- & (Py & Py') & <-). destruct h1; [|reflexivity].
  rewrite (peak_index _ _ Py), (peak_index _ _ Py'), !Z.add_0_l, !u32_small by lia. rewrite meanline_moved by (lia || (constructor; [exact L|constructor])). apply (agree_refl eq). reflexivity.
Qed.
Lemma lines_moved infos st amb boxes : Forall low boxes -> not_second_row boxes -> not_second_row (map mv boxes) ->
  filter_by_lines infos st amb (map mv boxes) = filter_by_lines infos st amb boxes.
Proof.
  intros B N N'. destruct boxes as [|t [|u boxes]]; [reflexivity| |exact (lines_moved2 infos st amb t u boxes B)].
  inversion B; subst. apply lines_moved1; [assumption|exact N|exact N'].
Qed.
End Rows.

Lemma boxes_low dx dy a b boxes : framed dx dy a b -> box_searchable a -> box_searchable b -> segment a = Ok boxes -> Forall (low dy) boxes.
Proof.
  intros F Sa Sb E. destruct (segment_order a Sa) as (l & E' & R & _). rewrite E in E'. injection E' as <-. destruct (read_boxes_facts _ _ _ R) as (Fl & _).
  destruct F as (X & Y & W & H & _). destruct Sb as (_ & B1 & B2 & B3). eapply Forall_impl; [|exact Fl]. cbn. intros t Ht. unfold low.
  assert (ih b + 1 < 4294967296) by nia. lia.
Qed.


(** * A break before the first character *)
Lemma loop_sim {S S' T} (R : S -> S' -> Prop) (f : S -> res (S + T)) (g : S' -> res (S' + T)) :
  (forall s s', R s s' -> agree (fun q q' => match q, q' with inl u, inl u' => R u u' | inr r, inr r' => r = r' | _, _ => False end) (f s) (g s')) ->
  forall n s s', R s s' -> loop n f s = loop n g s'.
Proof.
  intros H. induction n as [|n IH]; intros s s' Hr; [reflexivity|]. cbn [loop]. specialize (H s s' Hr). destruct (f s) as [[]| | |], (g s') as [[]| | |]; cbn in H; try contradiction; try congruence. now apply IH.
Qed.
Lemma break_at_next amb k sp i : 0 <= i -> break_at amb (k :: sp) (i + 1) = break_at amb sp i.
Proof. intros H. unfold break_at, rd. destruct (Z.ltb_spec (i + 1) 0), (Z.ltb_spec i 0); try lia. replace (Z.to_nat (i + 1)) with (S (Z.to_nat i)) by lia. reflexivity. Qed.
Theorem assemble_indent g dict st amb sp l : list_of st amb 0 = Ok l -> search_fn g l = Ok false -> Forall (fun k => 0 < k) sp ->
  assemble g dict st amb (0 :: sp) = assemble g dict st amb sp.
Proof.
  intros El Es Fp. assert (V : exists r amb', amb = r :: amb') by (unfold list_of in El; destruct amb as [|r amb']; [discriminate|eauto]). destruct V as (r & amb' & Ea).
  assert (Va : vsize amb <> 0) by (rewrite Ea, vsize_cons; pose proof (vsize_nonneg amb'); lia).
  assert (B0 : break_at amb (0 :: sp) 0 = Ok 0) by (unfold break_at; cbn [rd]; change (rd (0 :: sp) 0) with (Ok 0); cbn [bind]; pose proof (vsize_nonneg amb); destruct (Z.leb_spec 0 (vsize amb)); [reflexivity|lia]).
  unfold assemble. cbv zeta. rewrite B0. cbn [bind find_mark append_all]. rewrite Z.eqb_refl. cbn [bind].
  set (body := (fun spaces '(first, it_space, result, count) => if first =? vsize amb then Ok (inr (result, count)) else
         e <- break_at amb spaces it_space ;;
         middle <- find_mark g st amb (S (List.length amb)) true first e ;;
         ps <- positions_of g st amb (S (List.length amb)) first middle ;;
         '(found, result) <- disambiguous dict ps result ;;
         result <- (if found : bool then Ok result else append_all g st amb (S (List.length amb)) first middle result) ;;
         '(middle, result, count) <- append_marks g st amb (S (List.length amb)) middle e result count ;;
         if (middle =? e) && negb (e =? vsize amb) then Ok (inl (middle, it_space + 1, result ++ [32], count))
         else Ok (inl (middle, it_space, result, count))) : list Z -> Z * Z * list Z * Z -> res (Z * Z * list Z * Z + list Z * Z)).
  change (loop (S (S (List.length amb))) (body (0 :: sp)) (0, 1, [], 0) = (e0 <- break_at amb sp 0 ;; middle <- find_mark g st amb (S (List.length amb)) false 0 e0 ;; result <- append_all g st amb (S (List.length amb)) 0 middle [] ;;
     loop (S (S (List.length amb))) (body sp) (middle, (if middle =? e0 then 1 else 0), result, 0))).
  assert (B1 : break_at amb (0 :: sp) 1 = break_at amb sp 0) by (apply (break_at_next amb 0 sp 0); lia).
  destruct (break_at amb sp 0) as [e0|x| |] eqn:Ee; cbn [bind].
  - assert (P0 : 0 < e0).
    { unfold break_at in Ee. destruct sp as [|k sp']; [discriminate|]. change (rd (k :: sp') 0) with (Ok k) in Ee. cbn [bind] in Ee. destruct (k <=? vsize amb); [|discriminate]. injection Ee as <-. now inversion Fp. }
    cbn [find_mark]. destruct (Z.eqb_spec 0 e0) as [|_]; [lia|]. rewrite El. cbn [bind]. rewrite Es. cbn [bind Bool.eqb append_all]. rewrite Z.eqb_refl. cbn [bind]. destruct (Z.eqb_spec 0 e0) as [|_]; [lia|].
    apply (loop_sim (fun s s' => let '(f1, k1, r1, c1) := s in let '(f2, k2, r2, c2) := s' in f1 = f2 /\ k1 = k2 + 1 /\ 0 <= k2 /\ r1 = r2 /\ c1 = c2)); [|repeat split; lia].
    intros [[[f1 k1] r1] c1] [[[f2 k2] r2] c2] (-> & -> & Hk & -> & ->). unfold body. destruct (f2 =? vsize amb); [reflexivity|]. rewrite break_at_next by exact Hk.
    eapply agree_bind; [apply (agree_refl eq); reflexivity|]. intros e1 ? <-. eapply agree_bind; [apply (agree_refl eq); reflexivity|]. intros mid ? <-. eapply agree_bind; [apply (agree_refl eq); reflexivity|]. intros ps ? <-.
    eapply agree_bind; [apply (agree_refl eq); reflexivity|]. intros [fd rs] ? <-. eapply agree_bind; [apply (agree_refl eq); reflexivity|]. intros rs' ? <-. eapply agree_bind; [apply (agree_refl eq); reflexivity|]. intros [[m2 rr] cc] ? <-.
    destruct (_ && _); cbn [agree]; repeat split; lia.
  - cbn [loop]. unfold body at 1. destruct (Z.eqb_spec 0 (vsize amb)); [lia|]. rewrite B1. reflexivity.
  - cbn [loop]. unfold body at 1. destruct (Z.eqb_spec 0 (vsize amb)); [lia|]. rewrite B1. reflexivity.
  - cbn [loop]. unfold body at 1. destruct (Z.eqb_spec 0 (vsize amb)); [lia|]. rewrite B1. reflexivity.
Qed.

Theorem extract_moved rt cx glyphs datas x y lines dict dx dy a b boxes : image_of_bytes x 128 = Ok a -> image_of_bytes y 128 = Ok b -> box_searchable a -> box_searchable b -> framed dx dy a b ->
  segment a = Ok boxes -> same_indent dx boxes \/ opens_with_letter rt cx glyphs datas lines dict a -> not_second_row boxes -> not_second_row (map (moved dx dy) boxes) ->
  extract_text rt cx glyphs datas y lines dict = extract_text rt cx glyphs datas x lines dict.
Proof.
  intros Ea Eb Sa Sb F E Hi N N'. symmetry. unfold extract_text. rewrite Ea, Eb. destruct (load_all rt glyphs datas lines dict) as [[[[nodes g] infos] t]| | |] eqn:EL; cbn [bind]; try reflexivity.
  pose proof (read_line_rel dx dy a b F Sa Sb (mkrec t (rt_views rt) (rt_probs rt) (rt_zones rt) (rt_junk rt)) cx boxes E) as A.
  pose proof (line_boxes dy a Sa (mkrec t (rt_views rt) (rt_probs rt) (rt_zones rt) (rt_junk rt)) cx boxes) as LB.
  destruct (read_line _ a cx) as [s| | |] eqn:Es, (read_line _ b cx) as [s'| | |]; cbn [agree] in A; try contradiction; cbn [bind]; try congruence.
  destruct A as ((R1 & R2 & _ & R4 & R5 & _ & (C1 & C2)) & Lx & R7). specialize (LB s E eq_refl). rewrite R1, R4, R5, LB.
  rewrite (lines_moved dx dy ltac:(destruct F; lia) infos (l_store s) (l_amb s) boxes (boxes_low dx dy a b boxes F Sa Sb E) N N').
  destruct (filter_by_lines infos (l_store s) (l_amb s) boxes) as [st1| | |] eqn:E1; cbn [bind]; try reflexivity.
  destruct (filter_by_font st1 (l_amb s)) as [[st2 f]| | |] eqn:E2; cbn [bind]; try reflexivity.
  destruct Hi as [Hi|Hi]; [rewrite (R7 Hi); reflexivity|]. destruct R2 as [->|(-> & Fp)]; [reflexivity|].
  destruct Hi as (nodes' & g' & infos' & t' & s2 & st' & st & f' & r & l & K1 & K2 & K3 & K4 & K5 & K6 & K7). rewrite EL in K1. injection K1 as <- <- <- <-. rewrite Es in K2. injection K2 as <-.
  rewrite LB, E1 in K3. injection K3 as <-. rewrite E2 in K4. injection K4 as <- <-.
  cbn [app]. rewrite (assemble_indent g nodes st2 (l_amb s) (l_spaces s ++ [u32 (vsize (l_amb s))]) l); [reflexivity| |exact K7|].
  - unfold list_of. rewrite (rd_ok _ 0 r) by (lia || exact K5). exact K6.
  - apply Forall_app. split; [exact Fp|]. constructor; [|constructor]. assert (1 <= vsize (l_amb s)) by (destruct (l_amb s); [discriminate|rewrite vsize_cons; pose proof (vsize_nonneg l0); lia]). rewrite u32_small by lia. lia.
Qed.

(** * Checking a framing *)
Definition same_pix (p q : option Z) : bool := match p, q with Some a, Some b => a =? b | None, None => true | _, _ => false end.
Definition framed_check (dx dy : Z) (a b : image) : bool :=
  (0 <=? dx) && (0 <=? dy) && (iw a + dx <=? iw b) && (ih a + dy <=? ih b) &&
  forallb (fun p => same_pix (pix b (fst p + dx) (snd p + dy)) (pix a (fst p) (snd p))) (positions (iw a) (ih a)) &&
  forallb (fun p => implb (ink b (fst p) (snd p)) ((dx <=? fst p) && (fst p <? dx + iw a) && (dy <=? snd p) && (snd p <? dy + ih a))) (positions (iw b) (ih b)) &&
  forallb (fun y => negb (ink a (iw a - 1) y)) (zrange (ih a)).
Lemma framed_checked dx dy a b : framed_check dx dy a b = true -> framed dx dy a b.
Proof.
  unfold framed_check. intros H. rewrite !andb_true_iff in H. destruct H as ((((((H1 & H2) & H3) & H4) & H5) & H6) & H7). rewrite forallb_forall in H5, H6, H7.
  assert (Z0 : forall n i, 0 <= i < n -> In i (zrange n)) by (intros n i Hi; unfold zrange; apply in_map_iff; exists (Z.to_nat i); split; [lia|apply in_seq; lia]).
  assert (P : forall w h x y, 0 <= x < w -> 0 <= y < h -> In (x, y) (positions w h)) by (intros; apply in_prod; apply Z0; assumption).
  split; [lia|]. split; [lia|]. split; [lia|]. split; [lia|]. split; [|split].
  - intros x y Hx Hy. specialize (H5 _ (P _ _ x y Hx Hy)). cbn [fst snd] in H5. destruct (pix b (x + dx) (y + dy)), (pix a x y); cbn in H5; try discriminate; [f_equal; lia|reflexivity].
  - intros x y Hi. pose proof (ink_inside _ _ _ Hi) as (Hx & Hy). specialize (H6 _ (P _ _ x y Hx Hy)). cbn [fst snd] in H6. rewrite Hi in H6. cbn [implb] in H6. lia.
  - intros y. destruct (ink a (iw a - 1) y) eqn:E; [|reflexivity]. pose proof (ink_inside _ _ _ E) as (_ & Hy). specialize (H7 y (Z0 _ _ Hy)). rewrite E in H7. discriminate.
Qed.
