(** Properties C71 to C77: main/extract_text6.cpp. *)
From Verif Require Import Base BaseProofs SortModel SortProofs ImageModel ImageSpec PnmModel BoxModel BoxSpec StratModel ZoneModel DatasModel DatasSpec UtfSpec StreamModel
  GlyphIoModel GlyphIoSpec DatasIoModel DictIoModel TrieModel TrieSpec SpellModel SpellSpec IndexModel GlyphsModel FloatModel RecogModel RecogSpec
  RecogWitness ExtractModel ExtractSpec AssembleSpec LearnModel LearnSpec PipelineModel PipelineSpec PipelineProofs5 PropPipeline ReadSpec PropRead
  Ocr6Model Ocr6Spec Ocr6Proofs Ocr6Proofs2 OcrProofs Ocr6Proofs3 Ocr6Proofs4 Ocr6Proofs5 OcrOutcome OcrOutcome2.

Definition ex_rt6 : runtime6 := mkrt6 (fun c => isort (index_lt c)) (fun w => isort (lt6 w)) (isort gt_prob) (isort Z.ltb) (fun _ _ => 7).
Lemma ex_legal6 : legal6 ex_rt6.
Proof. split; [intros; apply isort_is_sort|]. split; [intros; apply isort_is_sort|]. split; apply isort_is_sort. Qed.
Definition g6 (w : string) (im : image) : glyph := mkglyph im [mkview (str w) (str "f") 0].
Definition ex_r : image := rows 2 ["xx"; "x-"; "x-"]%string.
Definition ex_l : image := rows 1 ["x"; "x"; "x"]%string.
Definition ex_o : image := rows 3 ["xxx"; "x-x"; "xxx"]%string.
Definition ex_rlo : list glyph := [g6 "r" ex_r; g6 "l" ex_l; g6 "o" ex_o].
Definition features_of (gs : list glyph) : res (list Z) :=
  df <- write_datas_file (fun _ => 0) (isort Z.ltb) new_ctxs (write_glyphs gs) ;;
  match df with Some df => Ok df | None => Throw ExIo end.
Definition read6_with (gs : list glyph) (img : image) : res (list Z * list Z * list Z) :=
  df <- features_of gs ;; extract_text6 ex_rt6 (write_glyphs gs) df (picture img) None.
Lemma plain1 c : 33 <= c -> plain_text [c].
Proof. intros Hc. split; [discriminate|]. intros d [<-|[]]. lia. Qed.
Lemma storable1 w c im : str w = [c] -> 33 <= c -> wf_image im -> storable (g6 w im).
Proof.
  intros E Hc W. split; [exact W|]. split; [reflexivity|]. constructor; [|constructor]. cbn [vw_word vw_font vw_line]. rewrite E.
  split; [now apply plain1|]. split; [apply (plain1 102); lia|cbn; lia].
Qed.
Lemma ex_recognisable6 : recognisable ex_r /\ recognisable ex_l /\ recognisable ex_o.
Proof. split; [|split]; repeat split; vm_compute; congruence. Qed.
Lemma ex_trainable6 : trainable6 ex_rlo.
Proof.
  destruct ex_recognisable6 as (R1 & R2 & R3). split; [|vm_compute; reflexivity].
  intros g [<-|[<-|[<-|[]]]]; (split; [|split; [assumption|discriminate]]); (eapply storable1; [vm_compute; reflexivity|lia|]); repeat split; vm_compute; congruence.
Qed.

(** C71: the candidates are exactly the rows whose first feature is at two tenths at
    most, and whose other simple features are in the same tenths; their score is 1
    when the first feature is in the same tenth, 0 otherwise. *)
Theorem C71_candidates : forall cols n, table6 cols n -> exists sd, make_search6 cols = Ok sd /\
  forall value, in_range6 value -> exists ps, candidates6 n cols sd (map value algos6) = Ok ps /\ found_candidates cols n value ps.
Proof. exact search6_exact. Qed.
Print Assumptions C71_candidates.

(** A table in which each feature has the given values. *)
Definition const_cols (l : list Z) : list (list fval) :=
  map (fun s => map (fun a => match st_algo s with Alternations => VAlts (repeat (mkalt false 0) 7) | Zone => VArr (repeat 0 7) | ProportionalityZone => VVec [] | _ => VNum a end) l) all_strategies.
(** The values of a file of features are not checked: a first feature of 210 or more
    makes the program write outside of its buffers. *)
Theorem C71_unchecked_refuted : load_all6 ex_rt6 (write_glyphs [g6 "l" ex_l]) (write_datas (const_cols [209])) None <> UB /\
  load_all6 ex_rt6 (write_glyphs [g6 "l" ex_l]) (write_datas (const_cols [210])) None = UB.
Proof. split; vm_compute; congruence. Qed.
Print Assumptions C71_unchecked_refuted.
Lemma const_table l : (forall a, In a l -> 0 <= a <= 200) -> Sorted.StronglySorted Z.le l -> Z.of_nat (List.length l) < 1000 -> table6 (const_cols l) (Z.of_nat (List.length l)).
Proof.
  intros Hl Hs Hn.
  assert (R : forall s c, In (s, c) (combine all_strategies (const_cols l)) -> c = map (fun a => match st_algo s with Alternations => VAlts (repeat (mkalt false 0) 7) | Zone => VArr (repeat 0 7) | ProportionalityZone => VVec [] | _ => VNum a end) l).
  { unfold const_cols. generalize all_strategies. intros ss. induction ss as [|s ss IH]; intros t c H; [destruct H|]. cbn [map combine] in H. destruct H as [H|H]; [injection H as <- <-; reflexivity|auto]. }
  assert (C : forall i a, cell6 (const_cols l) first_feature i (VNum a) -> nth_error l (Z.to_nat i) = Some a).
  { intros i a (_ & c & Hc & E). rewrite (R _ _ Hc) in E. cbn [first_feature st_algo] in E. rewrite nth_error_map in E. destruct (nth_error l (Z.to_nat i)); [|discriminate]. now injection E as ->. }
  split.
  - reflexivity.
  - intros s c H. rewrite (R _ _ H). rewrite map_length. split; [reflexivity|]. intros v Hv. apply in_map_iff in Hv as (a & <- & Ha). specialize (Hl a Ha).
    unfold typed. destruct (st_algo s); eexists; try (split; [reflexivity|reflexivity]); try reflexivity; (split; [reflexivity|lia]).
  - lia.
  - intros i a Ha. apply C, nth_error_In, Hl in Ha. unfold tenth. apply (Z.div_le_mono a 200 10); lia.
  - intros i j a b Hij Ha Hb. pose proof (proj1 Ha). apply C in Ha. apply C in Hb. assert (Hij' : (Z.to_nat i <= Z.to_nat j)%nat) by lia. revert Ha Hb Hij'. generalize (Z.to_nat i), (Z.to_nat j). clear - Hs.
    induction Hs as [|x l Hs IH F]; intros [|n] [|m]; cbn; try discriminate; intros Ha Hb H; try lia.
    + injection Ha as <-. injection Hb as <-. lia.
    + injection Ha as <-. rewrite Forall_forall in F. apply F. exact (nth_error_In _ _ Hb).
    + apply (IH n m Ha Hb). lia.
Qed.
Definition ex_value (first : Z) (s : strategy) : Z := if strategy_eqb s first_feature then first else 10.
Definition ex_candidates (first : Z) : res (list prob) := sd <- make_search6 (const_cols [10; 10; 25; 100]) ;; candidates6 4 (const_cols [10; 10; 25; 100]) sd (map (ex_value first) algos6).
Example C71_nonvacuous : table6 (const_cols [10; 10; 25; 100]) 4 /\ in_range6 (ex_value 15) /\ in_range6 (ex_value 35) /\
  ex_candidates 15 = Ok [mkpr 0 d1; mkpr 1 d1] /\ ex_candidates 35 = Ok [mkpr 0 d0; mkpr 1 d0].
Proof.
  split; [|split; [|split; [|split; vm_compute; reflexivity]]].
  - apply (const_table [10; 10; 25; 100]); [|repeat constructor; lia|reflexivity]. intros a H. repeat (destruct H as [<-|H]; [lia|]). destruct H.
  - intros s H. vm_compute in H. repeat (destruct H as [<-|H]; [vm_compute; split; congruence|]). destruct H.
  - intros s H. vm_compute in H. repeat (destruct H as [<-|H]; [vm_compute; split; congruence|]). destruct H.
Qed.

(** C72, full statement: the features of a character are computed as those of the
    glyphs were, so that a glyph is read as itself.  Proved: the features that are
    computed are those of the image that is not turned; a glyph is read as itself
    when the turn does not change the tenths of its features. *)
Theorem C72_unturned_partial : forall junk zsort img img90 s, recognisable img -> rotate90 img = Ok img90 ->
  load6 junk zsort img img90 s = feature_alone zsort (mkst (st_algo s) false) img img90.
Proof. exact load6_alone. Qed.
Print Assumptions C72_unturned_partial.
Theorem C72_own_glyph_partial : forall e n img i, sound_env6 e -> recognisable img ->
  own_row6 (r6_zones (e6_rt e)) img (e6_cols e) (Z.of_nat (List.length (e6_words e))) i -> unchanged_by_turn (r6_zones (e6_rt e)) img ->
  exists f, recognise6 e n img = Ok f /\ f6_amb f = f6_words f /\ incl (labels6 (e6_words e) i) (f6_words f).
Proof. exact own_row6_ok. Qed.
Print Assumptions C72_own_glyph_partial.
(** The glyphs r, l, o are learnt; only o is read. *)
Definition ex_orl : image := rows 10 ["-xxx-xx-x-"; "-x-x-x--x-"; "-xxx-x--x-"]%string.
Theorem C72_turned_refuted : trainable6 ex_rlo /\ read6_with ex_rlo ex_orl = Ok (str "o _ _ ", str "o _ _ ", str "o??") /\
  exists s v v', In s all_strategies /\ true6 (isort Z.ltb) ex_l s v /\ seen6 (isort Z.ltb) ex_l s v' /\ v <> v'.
Proof.
  split; [exact ex_trainable6|]. split; [vm_compute; reflexivity|]. exists (mkst Dvgravity2 true), (VNum 50), (VNum 100).
  split; [cbv; tauto|]. split; [exists (mkimage 3 1 [120; 120; 120]); split; vm_compute; reflexivity|]. split; [exists (mkimage 3 1 [120; 120; 120]); split; vm_compute; reflexivity|congruence].
Qed.
Print Assumptions C72_turned_refuted.

Lemma ex_built : exists datas nodes e, features_of ex_rlo = Ok datas /\ load_all6 ex_rt6 (write_glyphs ex_rlo) datas None = Ok (nodes, e) /\ built6 (isort Z.ltb) ex_rlo e /\ e6_rt e = ex_rt6.
Proof.
  destruct (write_datas_file (fun _ => 0) (isort Z.ltb) new_ctxs (write_glyphs ex_rlo)) as [[datas|]| | |] eqn:E; try (vm_compute in E; discriminate).
  destruct (load_all6_ok ex_rt6 ex_legal6 ex_rlo ex_trainable6 (fun _ => 0) (isort Z.ltb) (isort_is_sort _) new_ctxs datas E [] None (or_introl eq_refl)) as (nodes & e & H).
  exists datas, nodes, e. split; [unfold features_of; rewrite E; reflexivity|]. destruct H as (H1 & _ & H2). auto.
Qed.
(** The tenths of the features of a picture, as the program computes them and as they
    are in the tables. *)
Definition tenths (turn : bool) (im : image) : list (res Z) :=
  map (fun s => r <- rotate90 im ;; v <- feature_alone (isort Z.ltb) (if turn then s else mkst (st_algo s) false) im r ;; Ok (tenth (num v))) simple_strategies.
Lemma same_tenths im g : tenths false im = tenths true (gl_img g) -> same6 (isort Z.ltb) im g.
Proof.
  intros E s a b Hs (r & Er & Fa) (r' & Er' & Fb). apply In_nth_error in Hs as (k & Ek).
  assert (E' : nth_error (tenths false im) k = nth_error (tenths true (gl_img g)) k) by now rewrite E. unfold tenths in E'. rewrite !nth_error_map, Ek in E'. cbn [option_map] in E'.
  rewrite Er, Er' in E'. cbn [bind] in E'. rewrite Fa, Fb in E'. cbn [bind num] in E'. congruence.
Qed.
Example C72_nonvacuous : exists e i, sound_env6 e /\ recognisable ex_o /\ unchanged_by_turn (r6_zones (e6_rt e)) ex_o /\
  own_row6 (r6_zones (e6_rt e)) ex_o (e6_cols e) (Z.of_nat (List.length (e6_words e))) i /\ labels6 (e6_words e) i = [str "o"].
Proof.
  destruct ex_built as (datas & nodes & e & _ & _ & HB & Er). pose proof HB as (HE & _).
  destruct (glyph_row (isort Z.ltb) ex_rlo e HB (g6 "o" ex_o) (or_intror (or_intror (or_introl eq_refl)))) as (i & Hi & Lb & Cg). exists e, i. rewrite Er. cbn [r6_zones ex_rt6].
  split; [exact HE|]. split; [apply ex_recognisable6|]. split.
  - intros s a b Hs Ta Sb. symmetry. refine (same_tenths ex_o (g6 "o" ex_o) _ s b a Hs Sb Ta). vm_compute. reflexivity.
  - split; [|exact Lb]. split; [exact Hi|]. intros s v Hs C. apply (Cg s v (RecogProofs.simple_in_all s Hs)) in C. exact C.
Qed.

(** C73, full statement: the list of a row is that of the other rows with the same
    first word.  Proved when every glyph has a label. *)
Theorem C73_same_words_partial : forall words, Z.of_nat (List.length words) < 4294967296 -> (forall g, In g words -> g <> []) ->
  exists out, data_by_word words = Ok out /\ List.length out = List.length words /\
    forall i, 0 <= i < Z.of_nat (List.length words) -> exists l, rd out i = Ok l /\ NoDup l /\ forall j, In j l <-> same_word6 words i j.
Proof. exact data_by_word_exact. Qed.
Print Assumptions C73_same_words_partial.
(** Their order: increasing, but the last one first when it is after the row. *)
Theorem C73_order : forall words, Z.of_nat (List.length words) < 4294967296 -> (forall g, In g words -> g <> []) ->
  data_by_word words = Ok (map (scan6 words) (zrange (Z.of_nat (List.length words)))).
Proof. exact data_by_word_order. Qed.
Print Assumptions C73_order.
Example C73_order_nonvacuous : let words := [[str "a"]; [str "b"]; [str "a"; str "c"]; [str "a"]; [str "d"]; [str "b"]] in
  map (scan6 words) (zrange 6) = [[3; 2]; [5]; [3; 0]; [0; 2]; []; [1]].
Proof. vm_compute. reflexivity. Qed.
(** With a glyph without labels the program reads the first element of an empty
    vector. *)
Theorem C73_unlabelled_refuted : (forall words, In [] words -> data_by_word words = UB) /\ read6_with [mkglyph ex_o []] ex_orl = UB.
Proof. split; [exact data_by_word_unlabelled|vm_compute; reflexivity]. Qed.
Print Assumptions C73_unlabelled_refuted.
Example C73_nonvacuous : data_by_word [[str "a"]; [str "b"; str "a"]; [str "a"; str "c"]; [str "a"]] = Ok [[3; 2]; []; [3; 0]; [0; 2]] /\
  same_word6 [[str "a"]; [str "b"; str "a"]; [str "a"; str "c"]; [str "a"]] 2 3.
Proof. split; [vm_compute; reflexivity|]. repeat split; vm_compute; congruence. Qed.

(** C74: the characters of a line, in order, with a break where there are more than
    four empty columns.  When a picture comes again, the words of the cache are used. *)
Theorem C74_line : forall e, sound_env6 e -> forall img, box_searchable img -> forall boxes, segment img = Ok boxes -> Forall (small_character img) boxes ->
  (Forall (can_read6 (recognise6 e) img) boxes -> exists s, read_line6 (recognise6 e) img = Ok s) /\
  (forall s, read_line6 (recognise6 e) img = Ok s -> exists fs, line6 (recognise6 e) img 0 [] boxes fs (q_amb s) /\ q_r1 s = spaced f6_r1 fs /\ q_r2 s = spaced f6_r2 fs).
Proof. exact read_line6_reads. Qed.
Print Assumptions C74_line.
(** Full statement: a picture that comes again is read as the first time.  Proved
    when it was recognised. *)
Theorem C74_again_partial : forall e im f, sound_env6 e -> recognisable im -> recognised6 (recognise6 e) im f ->
  f6_first f = f6_r1 f /\ (exists l, f6_words f = f6_r2 f :: l) /\ (f6_amb f = f6_words f \/ (f6_amb f = [] /\ f6_words f = [unknown])).
Proof. exact found6_shape. Qed.
Print Assumptions C74_again_partial.
(** The same unknown picture is a question mark the first time, and a character "_"
    of a word the second time. *)
Definition ex_oll : image := rows 9 ["-xxx-x-x-"; "-x-x-x-x-"; "-xxx-x-x-"]%string.
Theorem C74_again_refuted : trainable6 ex_rlo /\ read6_with ex_rlo ex_oll = Ok (str "o _ _ ", str "o _ _ ", str "o?_").
Proof. split; [exact ex_trainable6|vm_compute; reflexivity]. Qed.
Print Assumptions C74_again_refuted.

(** C75, full statement: the text is that of the line, each word in its spelling.
    Proved: this is the text without the marks and the unknown characters at the
    beginning of the line. *)
Theorem C75_text_partial : forall dict spell line, (forall ps out, ps <> [] -> incl ps line -> disambiguous dict ps out = Ok (verdict out (spell ps))) ->
  assemble6 dict line = Ok (text6 spell line).
Proof. exact assemble6_exact. Qed.
Print Assumptions C75_text_partial.
Definition ex_quoted : list (list (list Z)) := [[str """"]; []; [str "a"]; [str "b"]; []; [str "."]].
Theorem C75_leading_refuted : assemble6 [] ex_quoted = Ok (str "ab?.") /\ render6 (fun _ => None) [] ex_quoted = str """?ab?.".
Proof. split; vm_compute; reflexivity. Qed.
Print Assumptions C75_leading_refuted.
Example C75_nonvacuous : (forall ps out, ps <> [] -> incl ps ex_quoted -> disambiguous [] ps out = Ok (verdict out ((fun _ => None) ps))) /\
  text6 (fun ps => if Nat.ltb (List.length ps) 2 then None else Some (str "xy")) ex_quoted = str "xy?.".
Proof. split; [|vm_compute; reflexivity]. intros ps out Ne _. destruct ps; [congruence|reflexivity]. Qed.

(** C76, full statement: with every glyph file and the features written from it, the
    program ends on every image, and the words it gives to a picture are words of
    glyphs near it, among them those of the glyphs in the same tenths.  Proved when the
    pictures can be compared with the glyphs or are in the same tenths as one. *)
Theorem C76_read_partial : forall rt gs junk z cx0 datas bytes img boxes dict spell, legal6 rt -> trainable6 gs -> is_std_sort Z.ltb z ->
  write_datas_file junk z cx0 (write_glyphs gs) = Ok (Some datas) -> image_of_bytes bytes 128 = Ok img -> box_searchable img -> segment img = Ok boxes ->
  Forall (readable6 z gs img) boxes -> dict_spell (labels gs) dict spell ->
  exists e fs amb, built6 z gs e /\ line6 (recognise6 e) img 0 [] boxes fs amb /\
    Forall2 (fun b f => forall im, char_image img b im -> named6 z gs im (f6_words f) /\ complete6 z gs im (f6_words f)) boxes fs /\
    extract_text6 rt (write_glyphs gs) datas bytes dict = Ok (spaced f6_r1 fs, spaced f6_r2 fs, text6 spell amb).
Proof. exact read6. Qed.
Print Assumptions C76_read_partial.
(** Exactly: the program has a result unless the recognition of a picture divides by
    zero, and the result is that of the recognition of the pictures. *)
Theorem C76_exact : forall rt gs junk z cx0 datas bytes img boxes dict spell, legal6 rt -> trainable6 gs -> is_std_sort Z.ltb z ->
  write_datas_file junk z cx0 (write_glyphs gs) = Ok (Some datas) -> image_of_bytes bytes 128 = Ok img -> box_searchable img -> segment img = Ok boxes ->
  Forall (small_character img) boxes -> dict_spell (labels gs) dict spell ->
  exists e, built6 z gs e /\
    let bad im := undefined6 (r6_zones rt) im (e6_cols e) (e6_words e) in
    ((exists b im, In b boxes /\ char_image img b im /\ bad im) /\ extract_text6 rt (write_glyphs gs) datas bytes dict = UB) \/
    (~ (exists b im, In b boxes /\ char_image img b im /\ bad im) /\
     exists fs amb, line6 (recognise6 e) img 0 [] boxes fs amb /\
       Forall2 (fun b f => forall im, char_image img b im -> outcome6 (r6_zones rt) im (e6_cols e) (e6_words e) f) boxes fs /\
       extract_text6 rt (write_glyphs gs) datas bytes dict = Ok (spaced f6_r1 fs, spaced f6_r2 fs, text6 spell amb)).
Proof. exact read6_outcome. Qed.
Print Assumptions C76_exact.
Definition ex_orl_boxes : list box := [mkbox 1 0 3 3; mkbox 5 0 2 3; mkbox 8 0 1 3].
Lemma ex_orl_pictures b im : In b ex_orl_boxes -> char_image ex_orl b im -> im = ex_o \/ im = ex_r \/ im = ex_l.
Proof.
  assert (T : forall j, 0 <= j < 3 -> j = 0 \/ j = 1 \/ j = 2) by (intros; lia).
  intros [<-|[<-|[<-|[]]]] Hi; [left|right; left|right; right]; refine (ExtractProofs.char_image_unique ex_orl _ _ _ Hi _);
    (split; [repeat split; vm_compute; congruence|]; split; [reflexivity|]; split; [reflexivity|]; cbn [bw bh bx by_]; intros i j Hi' Hj;
     destruct (T j Hj) as [->|[->| ->]]; (destruct (T i ltac:(lia)) as [->|[->| ->]]; [reflexivity|try reflexivity; lia|try reflexivity; lia])).
Qed.
Lemma ex_comparable im : im = ex_r \/ im = ex_l -> comparable_glyphs (isort Z.ltb) ex_rlo im.
Proof.
  intros H g a b Hg (r & Er & Ea) (r' & Er' & Eb) x y Hxy. destruct H as [-> | ->]; vm_compute in Er; injection Er as <-; vm_compute in Ea; injection Ea as <-;
    (destruct Hg as [<-|[<-|[<-|[]]]]; vm_compute in Er'; injection Er' as <-; vm_compute in Eb; injection Eb as <-; vm_compute in Hxy; intuition; try (injection H as <- <-; lia)).
Qed.
Example C76_nonvacuous : legal6 ex_rt6 /\ trainable6 ex_rlo /\ image_of_bytes (picture ex_orl) 128 = Ok ex_orl /\ box_searchable ex_orl /\ segment ex_orl = Ok ex_orl_boxes /\
  Forall (readable6 (isort Z.ltb) ex_rlo ex_orl) ex_orl_boxes /\ dict_spell (labels ex_rlo) None (fun _ => None) /\
  read6_with ex_rlo ex_orl = Ok (str "o _ _ ", str "o _ _ ", str "o??").
Proof.
  split; [exact ex_legal6|]. split; [exact ex_trainable6|]. split; [vm_compute; reflexivity|]. split; [repeat split; vm_compute; congruence|]. split; [vm_compute; reflexivity|].
  split; [|split; [left; split; reflexivity|vm_compute; reflexivity]]. destruct ex_recognisable6 as (R1 & R2 & R3).
  apply Forall_forall. intros b Hb im Him. destruct (ex_orl_pictures b im Hb Him) as [->|[->| ->]]; (split; [assumption|]).
  - right. exists (g6 "o" ex_o). split; [right; right; left; reflexivity|]. apply same_tenths. vm_compute. reflexivity.
  - left. apply ex_comparable. now left.
  - left. apply ex_comparable. now right.
Qed.

(** C77, full statement: every picture is recognised as specified: the words of the
    rows in the same tenths if there are any; otherwise those of the rows at two
    tenths that resemble the picture.  Proved when the zone proportions can be
    compared; the result is always as specified. *)
Theorem C77_outcome_partial : forall e n img, sound_env6 e -> recognisable img ->
  (forall f, recognise6 e n img = Ok f -> outcome6 (r6_zones (e6_rt e)) img (e6_cols e) (e6_words e) f) /\
  (comparable6 (r6_zones (e6_rt e)) img (e6_cols e) -> exists f, recognise6 e n img = Ok f).
Proof. exact recognise6_exact. Qed.
Print Assumptions C77_outcome_partial.
(** Exactly: there is no result when no row is in the same tenths, and for a row
    that is a candidate and resembles the picture, a comparison with another row of
    its word divides by zero before one succeeds. *)
Theorem C77_exact : forall e n img, sound_env6 e -> recognisable img ->
  (undefined6 (r6_zones (e6_rt e)) img (e6_cols e) (e6_words e) /\ recognise6 e n img = UB) \/
  (~ undefined6 (r6_zones (e6_rt e)) img (e6_cols e) (e6_words e) /\
   exists f, recognise6 e n img = Ok f /\ outcome6 (r6_zones (e6_rt e)) img (e6_cols e) (e6_words e) f).
Proof. exact recognise6_defined. Qed.
Print Assumptions C77_exact.
(** The features the program computes for a picture, with another first feature, in
    two rows with the same word: the comparison of the zone proportions divides by
    zero. *)
Definition ex_row (im : image) (d : Z) (s : strategy) : fval :=
  match rotate90 im with
  | Ok r => match feature_alone (isort Z.ltb) (mkst (st_algo s) false) im r with
            | Ok (VNum n) => VNum (if strategy_eqb s first_feature then n - d else n) | Ok v => v | _ => VNum 0 end
  | _ => VNum 0 end.
Definition ex_two_rows : list (list fval) := map (fun s => let v := ex_row ex_i 10 s in [v; v]) all_strategies.
Definition ex_two_words : list (list (list Z)) := [[str "l"]; [str "l"]].
Lemma bind_UB {A B} (m : res A) a (k : A -> res B) : m = Ok a -> bind m k = UB -> k a = UB.
Proof. intros ->. exact id. Qed.
Theorem C77_division_refuted : exists e, sound_env6 e /\ recognisable ex_i /\ recognise6 e 0 ex_i = UB.
Proof.
  assert (X : match make_search6 ex_two_rows with Ok _ => true | _ => false end = true) by (vm_compute; reflexivity).
  destruct (make_search6 ex_two_rows) as [sd| | |] eqn:E; try discriminate X. clear X. exists (mkenv6 ex_rt6 ex_two_rows sd ex_two_words [[1]; [0]]).
  split; [|split; [repeat split; vm_compute; congruence|]].
  - split; cbn [e6_cols e6_words e6_search e6_by_word e6_rt]; [| |exact E|vm_compute; reflexivity|intros; apply isort_is_sort|apply isort_is_sort|apply isort_is_sort].
    + clear E. assert (R : forall s c, In (s, c) (combine all_strategies ex_two_rows) -> In s all_strategies /\ c = [ex_row ex_i 10 s; ex_row ex_i 10 s]).
      { unfold ex_two_rows. generalize all_strategies. intros ss. induction ss as [|t ss IH]; intros s c H; [destruct H|]. cbn [map combine] in H. destruct H as [H|H]; [injection H as <- <-; split; [now left|reflexivity]|]. destruct (IH s c H). split; [now right|assumption]. }
      assert (C : forall i a, cell6 ex_two_rows first_feature i (VNum a) -> a = 90).
      { intros i a (_ & c & Hc & Ei). destruct (R _ _ Hc) as (_ & ->). apply nth_error_In in Ei. assert (V : ex_row ex_i 10 first_feature = VNum 90) by (vm_compute; reflexivity). rewrite V in Ei. destruct Ei as [Ei|[Ei|[]]]; now injection Ei as <-. }
      split.
      * vm_compute; reflexivity.
      * intros s c Hc. destruct (R _ _ Hc) as (Hs & ->). split; [reflexivity|]. intros v Hv. assert (v = ex_row ex_i 10 s) by (destruct Hv as [<-|[<-|[]]]; reflexivity). subst v. clear Hv Hc.
        vm_compute in Hs. repeat (destruct Hs as [<-|Hs]; [match goal with |- typed _ ?v => let x := eval vm_compute in v in replace v with x by (vm_compute; reflexivity) end; unfold typed; cbn [st_algo]; eexists; try (split; [reflexivity|lia]); try (split; reflexivity); reflexivity|]). destruct Hs.
      * reflexivity.
      * intros i a H. apply C in H. subst a. vm_compute. congruence.
      * intros i j a b _ Ha Hb. apply C in Ha. apply C in Hb. lia.
    + intros g [<-|[<-|[]]]; discriminate.
  - refine (bind_UB _ _ (fun sd => recognise6 (mkenv6 ex_rt6 ex_two_rows sd ex_two_words [[1]; [0]]) 0 ex_i) E _). vm_compute. reflexivity.
Qed.
Print Assumptions C77_division_refuted.
Example C77_exact_nonvacuous : exists e, sound_env6 e /\ recognisable ex_i /\ undefined6 (r6_zones (e6_rt e)) ex_i (e6_cols e) (e6_words e).
Proof.
  destruct C77_division_refuted as (e & HE & HR & E). exists e. split; [exact HE|]. split; [exact HR|].
  destruct (C77_exact e 0 ex_i HE HR) as [(U & _)|(_ & f & Ef & _)]; [exact U|]. rewrite E in Ef. discriminate.
Qed.
Example C77_nonvacuous : exists e, sound_env6 e /\ recognisable ex_l /\ comparable6 (r6_zones (e6_rt e)) ex_l (e6_cols e).
Proof.
  destruct ex_built as (datas & nodes & e & _ & _ & HB & Er). pose proof HB as (HE & _). exists e. split; [exact HE|]. split; [apply ex_recognisable6|].
  intros j a b Sa Cb. rewrite Er in Sa. cbn [r6_zones ex_rt6] in Sa.
  assert (Hj : 0 <= j < Z.of_nat (List.length (e6_words e))).
  { destruct Cb as (Hj & c & Hc & En). split; [exact Hj|]. destruct (t6_rows _ _ (se_table e HE) _ _ Hc) as (L & _). assert (Z.to_nat j < List.length c)%nat by (apply nth_error_Some; congruence). lia. }
  destruct (row_glyph (isort Z.ltb) ex_rlo e HB j Hj) as (g & Hg & _ & Cg). apply Cg in Cb; [|cbv; tauto]. split.
  - destruct Cb as (r & Eg & Eb). destruct Hg as [<-|[<-|[<-|[]]]]; vm_compute in Eg; injection Eg as <-; vm_compute in Eb; injection Eb as <-; intros y Hy; vm_compute in Hy; intuition lia.
  - exact (ex_comparable ex_l (or_intror eq_refl) g a b Hg Sa Cb).
Qed.
