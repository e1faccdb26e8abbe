(** Proofs about extract_text6 after the programs that learn images and texts. *)
From Verif Require Import Base BaseProofs SortModel SortProofs ImageModel ImageSpec ImageProofs PnmModel BoxModel BoxSpec StratModel ZoneModel DatasModel DatasSpec DatasProofs
  UtfSpec StreamModel GlyphIoModel GlyphIoSpec DatasIoModel DictIoModel TrieModel TrieProofs DictionaryProofs IndexModel FloatModel FloatSpec FloatProofs FormatSpec FormatModel FormatProofs RecogModel RecogSpec RecogProofs GlyphsModel GlyphsSpec
  ExtractModel ExtractSpec ExtractProofs NormModel NormSpec NormProofs LearnModel LearnSpec LearnProofs LearnProofs3 LearnProofs4 PipelineModel PipelineSpec PipelineProofs2 PipelineProofs4 PipelineProofs5
  ReadSpec ReadProofs Ocr6Model Ocr6Spec Ocr6Proofs Ocr6Proofs2 OcrProofs Ocr6Proofs3 Ocr6Proofs4 Ocr6Proofs5 ShowModel ShowSpec ShowProofs PrintModel PrintSpec PrintProofs PrintProofs2 ProgModel ProgSpec ProgProofs
  OcrOutModel OcrOutSpec OcrOutProofs OcrOutProofs2 OcrOutProofs3 Same6Spec SameProofs4 SameProofs6 ChainSpec ChainProofs Chain6Spec.
From Coq Require Import Sorted SpecFloat Permutation QArith.
Local Open Scope Z_scope.

(** * Matching *)
Lemma unturned_any_sort s z z' img img90 : In s simple_strategies -> feature_alone z (mkst (st_algo s) false) img img90 = feature_alone z' (mkst (st_algo s) false) img img90.
Proof. intros Hs. cbn in Hs. repeat (destruct Hs as [<-|Hs]; [reflexivity|]). destruct Hs. Qed.
Lemma matches_same z im g : matches6 im (gl_img g) <-> same6 z im g.
Proof.
  split; intros H s a b Hs (r & Er & Ea) (q & Eq' & Eb); apply (H s a b Hs).
  - exists r. split; [exact Er|]. rewrite <- Ea. now apply unturned_any_sort.
  - exists q. split; [exact Eq'|]. rewrite <- Eb. now apply simple_any_sort.
  - exists r. split; [exact Er|]. rewrite <- Ea. now apply unturned_any_sort.
  - exists q. split; [exact Eq'|]. rewrite <- Eb. now apply simple_any_sort.
Qed.
Lemma squeeze_one w (l : list (list Z)) : l <> [] -> (forall x, In x l -> x = w) -> squeeze l = [w].
Proof.
  induction l as [|a l IH]; intros N H; [destruct (N eq_refl)|]. assert (a = w) by (apply H; now left). subst a. destruct l as [|b l]; [reflexivity|].
  assert (b = w) by (apply H; right; now left). subst b. change (squeeze (w :: w :: l)) with (if list_eq_dec Z.eq_dec w w then squeeze (w :: l) else w :: squeeze (w :: l)).
  destruct (list_eq_dec Z.eq_dec w w) as [_|Q]; [|destruct (Q eq_refl)]. apply IH; [discriminate|]. intros x Hx. apply H. now right.
Qed.
Lemma once_same (A : Type) (f : A -> list (list Z)) w (ks : list A) : NoDup (map f ks) -> (forall k, In k ks -> f k = [w]) -> ks <> [] -> exists k, ks = [k].
Proof.
  intros N H K. destruct ks as [|k [|k' ks]]; [destruct (K eq_refl)|eauto|]. cbn [map] in N. inversion N as [|? ? Q _]; subst. destruct Q. left.
  rewrite (H k) by now left. apply H. right. now left.
Qed.

Lemma nodup_before (A : Type) (a b : list A) : NoDup (a ++ b) -> NoDup a.
Proof. induction a as [|x a IH]; intros H; [constructor|]. cbn [app] in H. inversion H as [|? ? Q H']; subst. constructor; [|exact (IH H')]. intros Hx. apply Q, in_or_app. now left. Qed.

Lemma text_one t : score_text d1 t -> t = str "1".
Proof.
  intros H. refine (shown_unique _ _ _ H _).
  apply (shown_eq (ratio 1 1)); [reflexivity|]. change (str "1") with (print_ratio 1 1). apply print_ratio_shown; lia.
Qed.
Lemma text_zero t : score_text d0 t -> t = str "0".
Proof. intros [(_ & E)|(P & _)]; [exact E|]. vm_compute in P. discriminate P. Qed.

(** * A picture *)
Section Picture.
Context (z : list Z -> list Z) (Hz : is_std_sort Z.ltb z) (gs : list glyph) (e : env6) (HB : built6 z gs e) (HD : forall g, In g gs -> gl_views g <> []).
Context (im : image) (w : list Z) (R : recognisable im) (HT : taught6 gs im w).
Let N := Z.of_nat (List.length (e6_words e)).

Lemma taught_same : exists g, In g gs /\ same6 z im g.
Proof. destruct HT as ((g & Hg & M) & _). exists g. split; [exact Hg|]. now apply matches_same. Qed.
Lemma certain_word value : (forall s, In s simple_strategies -> seen6 (r6_zones (e6_rt e)) im s (VNum (value s))) ->
  (exists i, certain6 (e6_cols e) N value i) /\ forall i, certain6 (e6_cols e) N value i -> labels6 (e6_words e) i = [w].
Proof.
  intros Hv. split.
  - destruct taught_same as (g & Hg & Sg). exact (same_certain z Hz gs e HB im value Hv g Hg Sg).
  - intros i Ci. destruct (close_glyph z Hz gs e HB im value Hv i (proj1 Ci)) as (g & Hg & Lb & _ & K). rewrite Lb. unfold words_of6. apply squeeze_one.
    + specialize (HD g Hg). destruct (gl_views g); [destruct (HD eq_refl)|discriminate].
    + intros x Hx. apply in_map_iff in Hx as (v & <- & Hv'). destruct HT as (_ & U). apply (U g v Hg); [|exact Hv']. apply (matches_same z). now apply K.
Qed.
Lemma found_sure f : recognised6 (recognise6 e) im f -> f = mkf6 w w [w] w [w].
Proof.
  intros Rf. pose proof HB as (HE & _). destruct (recognise6_exact e 0 im HE R) as (O & _). destruct (O f (Rf 0)) as (value & Hv & D). cbv zeta in D. fold N in D.
  destruct (certain_word value Hv) as ((i & Ci) & HW). destruct D as [(Q & _)|[(ks & w' & En & (k & ks' & l & -> & Lk) & ->)|(Q & _)]]; [destruct (Q i (proj1 Ci))| |destruct (Q i Ci)].
  destruct (once_same _ (labels6 (e6_words e)) w (k :: ks') (en_once _ _ _ En)) as (k' & Ek); [|discriminate|].
  { intros j Hj. apply HW. exact (en_kept _ _ _ En j Hj). }
  injection Ek as -> ->. assert (Lw : labels6 (e6_words e) k' = [w]) by (apply HW; apply (en_kept _ _ _ En); now left). rewrite Lw in Lk. injection Lk as <- <-.
  cbn [flat_map]. rewrite Lw. reflexivity.
Qed.
Lemma not_undefined zr : is_std_sort Z.ltb zr -> ~ undefined6 zr im (e6_cols e) (e6_words e).
Proof.
  intros Hr (value & Hv & D). cbv zeta in D. fold N in D. destruct D as (Q & _). destruct (certain_word value) as ((i & Ci) & _); [|exact (Q i Ci)].
  intros s Hs. apply (seen_any z Hz gs e HB). apply (true6_any zr z); [exact Hr|exact Hz|exact (Hv s Hs)].
Qed.
Lemma text_sure f t : explained6 e im f t -> exists others, t = best_text w ++ zero_text others.
Proof.
  intros (value & ps & Hv & F & X). fold N in F. pose proof HB as (HE & _). pose proof (se_table e HE) as T. fold N in T. destruct (certain_word value Hv) as ((i & Ci) & HW).
  assert (Hi : exists p, In p ps /\ pr_p p = d1).
  { pose proof F as (_ & Mem & _). assert (Hp : In i (map pr_i ps)) by (apply Mem; exact (proj1 Ci)). apply in_map_iff in Hp as (p & Ep & Hp). exists p. split; [exact Hp|].
    destruct (found_score _ _ _ _ p T F Hp) as (_ & K & _). apply K. rewrite Ep. exact Ci. }
  destruct Hi as (p0 & H0 & E0).
  assert (Top : forall rs p best u, ranked (e6_words e) ps rs -> listing (e6_words e) rs (p :: best) u -> pr_p p = d1 /\ exists others, u = best_text w ++ zero_text others).
  { intros rs p best u Rk L. inversion L as [|p' best' rest t0 ts Hb Hr Ht Hts Er Eb Eu]; subst.
    assert (Sc : forall q, In q (p :: best ++ rest) -> In q ps) by (exact (rk_among _ _ _ Rk)).
    assert (Val : forall q, In q ps -> (pr_p q = d1 <-> certain6 (e6_cols e) N value (pr_i q)) /\ (pr_p q = d1 \/ pr_p q = d0)).
    { intros q Hq. destruct (found_score _ _ _ _ q T F Hq) as (_ & A & _ & B). auto. }
    assert (Ep : pr_p p = d1).
    { destruct (rk_all _ _ _ Rk p0 H0) as (r & Hr' & _ & Dr). rewrite E0 in Dr.
      destruct (proj2 (Val p (Sc p (or_introl eq_refl)))) as [Q|Q]; [exact Q|].
      assert (Er : pr_p r = d1) by (destruct (proj2 (Val r (Sc r Hr'))) as [A|A]; [exact A|rewrite A in Dr; discriminate Dr]).
      destruct Hr' as [<-|Hr']; [exact Er|]. apply in_app_or in Hr' as [Hr'|Hr']; [rewrite <- (Hb r Hr'); exact Er|].
      specialize (Hr r Hr'). rewrite Er, Q in Hr. discriminate Hr. }
    split; [exact Ep|].
    assert (Lb : forall q, In q (p :: best) -> labels6 (e6_words e) (pr_i q) = [w]).
    { intros q Hq. apply HW. apply (Val q).
      - apply Sc. destruct Hq as [<-|Hq]; [now left|right; apply in_or_app; now left].
      - destruct Hq as [<-|Hq]; [exact Ep|rewrite (Hb q Hq); exact Ep]. }
    destruct (once_same _ (fun q => labels6 (e6_words e) (pr_i q)) w (p :: best)) as (p' & Eb'); [|exact Lb|discriminate|].
    { pose proof (rk_once _ _ _ Rk) as Nd. rewrite app_comm_cons, map_app in Nd. exact (nodup_before _ _ _ Nd). }
    injection Eb' as -> ->. rewrite Ep in Ht. rewrite (text_one t0 Ht). exists (map (fun q => labels6 (e6_words e) (pr_i q)) rest).
    assert (Z0 : forall q, In q rest -> pr_p q = d0).
    { intros q Hq. destruct (proj2 (Val q (Sc q (in_or_app (p' :: []) rest q (or_intror Hq))))) as [A|A]; [|exact A]. specialize (Hr q Hq). rewrite A, Ep in Hr. discriminate Hr. }
    assert (Ez : flat_map (fun '(q, u) => red ++ words_text (e6_words e) q ++ plain ++ u ++ str "  ") (combine rest ts) =
      flat_map (fun l => red ++ words_line l ++ plain ++ str "0  ") (map (fun q => labels6 (e6_words e) (pr_i q)) rest)).
    { clear - Hts Z0. induction Hts as [|q u rest ts Hq Hts IH]; [reflexivity|]. cbn [combine flat_map map]. rewrite (IH (fun q H => Z0 q (or_intror H))).
      rewrite (Z0 q (or_introl eq_refl)) in Hq. rewrite (text_zero u Hq). unfold words_text, words_line. rewrite <- !app_assoc. reflexivity. }
    rewrite Ez. cbn [flat_map]. unfold words_text. rewrite (Lb p' (or_introl eq_refl)). unfold best_text, zero_text. cbn [flat_map]. rewrite !app_nil_r, <- !app_assoc. reflexivity. }
  destruct X as [t E _|rs p best w' ws t Rk L D _|rs p best w' ws t qs u Rk L D _ _ _ _|rs p best w' ws t qs rs2 q best2 w2 ws2 u Rk L D _ _ _ _ _].
  - subst ps. destruct H0.
  - exact (proj2 (Top rs p best t Rk L)).
  - destruct (Top rs p best t Rk L) as (Q & _). rewrite Q in D. discriminate D.
  - destruct (Top rs p best t Rk L) as (Q & _). rewrite Q in D. discriminate D.
Qed.
End Picture.

(** * The line and the program *)
Section Line.
Context (z : list Z -> list Z) (Hz : is_std_sort Z.ltb z) (gs : list glyph) (HD : forall g, In g gs -> gl_views g <> []) (e : env6) (HB : built6 z gs e).
Definition sure6 (w : list Z) : found6 := mkf6 w w [w] w [w].
Lemma line_sure img x before boxes fs amb : line6 (recognise6 e) img x before boxes fs amb -> forall ws,
  Forall2 (fun b w => forall im, char_image img b im -> recognisable im /\ taught6 gs im w) boxes ws -> fs = map sure6 ws /\ amb = heard6 x boxes ws.
Proof.
  induction 1 as [x before|x before b boxes f fs l amb im Hc Rf Hl L IH]; intros ws F; inversion F as [|? w ? ws' H F']; subst; [split; reflexivity|].
  destruct (H im Hc) as (R & T). pose proof (found_sure z Hz gs e HB HD im w R T f Rf) as ->. destruct (IH ws' F') as (-> & ->). cbn [map heard6]. split; [reflexivity|].
  assert (El : l = [w]) by (destruct Hl as [(_ & ->)|(_ & ->)]; reflexivity). rewrite El. reflexivity.
Qed.
End Line.
Lemma spaced_sure word ws : (forall w, word (sure6 w) = w) -> spaced word (map sure6 ws) = words_line ws.
Proof. intros H. unfold spaced, words_line. induction ws as [|w ws IH]; [reflexivity|]. cbn [map flat_map]. rewrite H, IH. reflexivity. Qed.

Theorem main_taught6 gs junk z cx0 datas : trainable6 gs -> is_std_sort Z.ltb z -> write_datas_file junk z cx0 (write_glyphs gs) = Ok (Some datas) ->
  prints_words6 (taught6 gs) (labels gs) (write_glyphs gs) datas (vsize gs).
Proof.
  intros HT Hz ED rt nan disk prog args bytes img boxes ws dict spell Hrt Hf Eb Hs Es F Hd.
  assert (Sm : Forall (small_character img) boxes).
  { clear - F. induction F as [|b w boxes ws H F IH]; constructor; [|exact IH]. intros im Him. exact (proj1 (H im Him)). }
  assert (HD : forall g, In g gs -> gl_views g <> []) by (intros g Hg; destruct HT as (HG & _); apply (HG g Hg)).
  assert (Of : forall b im, In b boxes -> char_image img b im -> exists w, recognisable im /\ taught6 gs im w).
  { clear - F. induction F as [|b w boxes ws H F IH]; [intros ? ? []|]. intros b' im [<-|Hb] Him; [exists w; exact (H im Him)|exact (IH b' im Hb Him)]. }
  destruct (main_trained6 rt gs junk z cx0 datas bytes img boxes dict spell nan disk prog args Hrt HT Hz ED Eb Hs Es Sm Hd Hf) as (e & nodes & HB & En & [(B & _)|(_ & fs & amb & out & L & P & Em)]).
  - exfalso. destruct B as (b & im & Hb & Him & U). destruct (Of b im Hb Him) as (w & R & T).
    destruct Hrt as (_ & _ & _ & Hr). exact (not_undefined z Hz gs e HB HD im w T (r6_zones rt) Hr U).
  - destruct (line_sure z Hz gs HD e HB img 0 [] boxes fs amb L ws F) as (-> & ->). rewrite !spaced_sure in Em by reflexivity.
    destruct P as (pics & ims & ts & Hp & Hi & Ht & ->). exists nodes, pics, ims, ts. split; [exact En|]. split; [exact Hp|]. split; [exact Hi|]. split; [|exact Em].
    assert (Hin : forall im, In im ims -> exists w, recognisable im /\ taught6 gs im w).
    { intros im I. apply (first_seen_in _ _ Hi) in I. clear - Hp Of I. induction Hp as [|b p boxes pics C Hp IH]; [destruct I|].
      destruct I as [->|I]; [exact (Of b im (or_introl eq_refl) C)|]. apply IH; [|exact I]. intros b' im' Hb. apply Of. now right. }
    clear - Ht Hin Hz HB HD. induction Ht as [|im t ims ts (f & Rf & X) Ht IH]; constructor; [|apply IH; intros; apply Hin; now right].
    destruct (Hin im (or_introl eq_refl)) as (w & R & T). destruct (text_sure z Hz gs e HB HD im w T f t X) as (others & Et). exists w, others. auto.
Qed.

(** * The lessons *)
Section Same.
Context (ls : list lesson) (gss : list (list glyph)) (out : list glyph).
Hypothesis (HL : Forall good_lesson ls).
Hypothesis (HW : loadable (flat_map le_words ls)).
Hypothesis (HR : vsize (flat_map le_words ls) + 63 < 4294967296).
Hypothesis (HG : Forall2 (fun l gs => glyphs_for (le_img l) (le_font l) (le_boxes l) (le_words l) gs) ls gss).
Hypothesis (HS : Forall storable out).
Hypothesis (HI : forall im, has_image out im <-> has_image (List.concat gss) im).
Hypothesis (HV : forall im v, labelled out im v <-> labelled (List.concat gss) im v).
Hypothesis (HN : (List.length out <= List.length (List.concat gss))%nat).
Hypothesis (HM : (List.length (flat_map gl_views out) <= List.length (flat_map gl_views (List.concat gss)))%nat).
Hypothesis (HD : forall g, In g out -> gl_views g <> []).

Lemma taught_learnt6 im w : taught6 out im w -> learnt6 ls im w.
Proof.
  intros ((g & Hg & R) & U). destruct (gl_views g) as [|v vs] eqn:Ev; [destruct (HD g Hg Ev)|]. split.
  - exists (gl_img g), (vw_word v). split; [|exact R]. apply (labelled_teaches ls gss HL HG), HV. exists g. split; [exact Hg|]. split; [reflexivity|]. rewrite Ev. left. reflexivity.
  - intros im' w' T R'. destruct (teaches_labelled ls gss HL HG im' w' T) as (v' & Hv & <-). apply HV in Hv as (g' & A & <- & B). exact (U g' v' A R' B).
Qed.
Lemma learnt_taught6 im w : learnt6 ls im w -> taught6 out im w.
Proof.
  intros ((im' & w' & T & R) & U). split.
  - destruct (teaches_labelled ls gss HL HG im' w' T) as (v & Hv & _). apply HV in Hv as (g & A & B & _). exists g. split; [exact A|]. rewrite B. exact R.
  - intros g v Hg Rg Hv. apply (U (gl_img g)); [|exact Rg]. apply (labelled_teaches ls gss HL HG), HV. exists g. auto.
Qed.
Lemma lessons_trainable6 : trainable6 out.
Proof.
  destruct (same_trainable ls gss HL HG out HS HI HV HN HM HD HW) as (HT & _). split.
  - intros g Hg. destruct (HT g Hg) as (A & B & C & _). auto.
  - destruct (lessons_labels ls gss HL HG) as (_ & Lb). rewrite Lb in HN. unfold vsize in *. lia.
Qed.
Lemma dict_spell_same ws ws' dict spell : (forall w, In w ws <-> In w ws') -> dict_spell ws dict spell -> dict_spell ws' dict spell.
Proof.
  intros H [A|(sort & words & nodes & A & B & C & D & E & F & G & I)]; [now left|right]. exists sort, words, nodes. repeat (split; [assumption|]). split; [|exact I].
  rewrite Forall_forall in *. intros w Hw. apply G, H, Hw.
Qed.
Lemma prints_lessons6 junk z cx0 datas : is_std_sort Z.ltb z -> write_datas_file junk z cx0 (write_glyphs out) = Ok (Some datas) ->
  prints_learnt6 ls (write_glyphs out) datas (vsize out).
Proof.
  intros Hz ED rt nan disk prog args bytes img boxes ws dict spell Hrt Hf Eb Hs Es F Hd.
  destruct (main_taught6 out junk z cx0 datas lessons_trainable6 Hz ED rt nan disk prog args bytes img boxes ws dict spell Hrt Hf Eb Hs Es) as (nodes & pics & ims & ts & A & B & C & D & E).
  - clear - F HL HG HV. induction F as [|b w boxes ws H F IH]; constructor; [|exact IH]. intros im Him. destruct (H im Him) as (R & T). split; [exact R|exact (learnt_taught6 im w T)].
  - apply (dict_spell_same (flat_map le_words ls)); [|exact Hd]. intros w. rewrite <- (proj1 (lessons_labels ls gss HL HG)). apply same_labels'; assumption.
  - exists nodes, pics, ims, ts. split; [exact A|]. split; [exact B|]. split; [exact C|]. split; [|exact E].
    clear - D HL HG HV HD. induction D as [|im t ims ts (w & o & T & Et) D IH]; constructor; [|exact IH]. exists w, o. split; [exact (taught_learnt6 im w T)|exact Et].
Qed.
End Same.

(** * The chain *)
Theorem chain6 disk lum opts names ls sort sort_views junk z cx0 progs gname nname : teachable ls -> vsize (flat_map le_words ls) + 63 < 4294967296 -> names <> [] -> luminance_args opts names lum ->
  Forall2 (lesson_on disk lum) names ls -> is_std_sort glyph_less sort -> is_std_sort view_less sort_views -> is_std_sort Z.ltb z ->
  exists gf nf df n, pictures_taught ls n /\ prints_learnt6 ls nf df n /\
    write_glyphs_main disk (fst (fst progs) :: opts ++ triples names) = Ok (gf, Exits 0) /\
    normalize_main sort sort_views (saved disk gname gf) [snd (fst progs); gname] = Ok (nf, Exits 0) /\
    write_datas_main junk z cx0 (saved (saved disk gname gf) nname nf) [snd progs; nname] = Ok (df, Exits 0).
Proof.
  intros (HL & HW) HR Hn Ho F H1 H2 Hz. destruct (write_chain disk lum opts (fst (fst progs)) names ls Hn Ho F HL) as (gss & HG & E1).
  assert (HS : Forall storable (List.concat gss)) by (apply Forall_concat; exact (lessons_storable ls gss HL HG)).
  assert (HS1 : Forall (Forall storable) [List.concat gss]) by (constructor; [exact HS|constructor]).
  destruct (lessons_labels ls gss HL HG) as (La & Lb). pose proof HW as (_ & V & _).
  assert (HB : Z.of_nat (List.length (flat_map gl_views (List.concat [List.concat gss]))) < 4294967296) by (cbn [List.concat]; rewrite app_nil_r, <- labels_length, La; exact V).
  destruct (normalize_files_ok sort sort_views [List.concat gss] H1 H2 HS1 HB) as (nf & out & En & _ & So & Inc & HI & HV & -> & N1 & N2).
  assert (E2 : normalize_main sort sort_views (saved disk gname (write_glyphs (List.concat gss))) [snd (fst progs); gname] = Ok (write_glyphs out, Exits 0)).
  { apply (normalize_one sort sort_views _ _ _ (List.concat gss)); [exact HS|apply saved_here|exact En]. }
  cbn [List.concat map] in *. rewrite app_nil_r in *.
  assert (HD : forall g, In g out -> gl_views g <> []).
  { intros g Hg. assert (Hi : has_image (List.concat gss) (gl_img g)) by (apply HI; exists g; auto).
    destruct (has_image_labelled ls gss HL HG _ Hi) as (v & Hv). apply HV in Hv as (g' & A & B & C).
    rewrite (increasing_distinct out So Inc g g' Hg A (eq_sym B)). destruct (gl_views g'); [destruct C|discriminate]. }
  destruct (datas_lessons ls gss out HL HW HG So HI HV N1 N2 HD junk z cx0 Hz) as (df & ED).
  exists (write_glyphs (List.concat gss)), (write_glyphs out), df, (vsize out). split; [|split; [|split; [exact E1|split; [exact E2|]]]].
  - exists (map gl_img out). split; [exact (increasing_nodup out So Inc)|]. split; [|unfold vsize; now rewrite map_length].
    intros im. rewrite (teaches_image ls gss out HL HG HI HV). unfold has_image. rewrite in_map_iff. split; intros (g & A & B); exists g; auto.
  - exact (prints_lessons6 ls gss out HL HW HR HG So HI HV N1 N2 HD junk z cx0 df Hz ED).
  - exact (write_datas_table_main junk z cx0 _ (snd progs) nname (write_glyphs out) (Some df) (saved_here _ _ _) ED).
Qed.
Lemma lesson_learnt6 ls l : Forall good_lesson ls -> unambiguous6 ls -> In l ls -> (forall b im, In b (le_boxes l) -> char_image (le_img l) b im -> matches6 im im) ->
  Forall2 (fun b w => forall im, char_image (le_img l) b im -> recognisable im /\ learnt6 ls im w) (le_boxes l) (le_words l).
Proof.
  intros HL HU Hl HM. pose proof HL as HL'. rewrite Forall_forall in HL'. destruct (HL' l Hl) as (_ & _ & _ & _ & _ & Ln & Sm).
  assert (G : forall boxes ws, List.length boxes = List.length ws -> (forall b w, In (b, w) (combine boxes ws) -> In (b, w) (combine (le_boxes l) (le_words l))) ->
    Forall (small_character (le_img l)) boxes -> Forall2 (fun b w => forall im, char_image (le_img l) b im -> recognisable im /\ learnt6 ls im w) boxes ws).
  { induction boxes as [|b boxes IH]; intros [|w ws] L Hin S'; try discriminate; constructor; inversion S' as [|? ? S1 S2]; subst.
    - intros im Him. pose proof (S1 im Him) as R. split; [exact R|]. assert (Hb : In (b, w) (combine (le_boxes l) (le_words l))) by (apply Hin; left; reflexivity).
      assert (T : teaches ls im w) by (exists l, b; split; [exact Hl|]; split; [exact Hb|exact Him]).
      split; [exists im, w; split; [exact T|exact (HM b im (in_combine_l _ _ _ _ Hb) Him)]|]. intros im' w' T' R'. symmetry. exact (HU im w im' w' T T' R').
    - apply IH; [cbn [List.length] in L; lia|intros b' w' H; apply Hin; right; exact H|exact S2]. }
  apply G; [exact Ln|auto|exact Sm].
Qed.
Theorem chain_reads6 disk opts names ls sort sort_views junk z cx0 progs gname nname fname : teachable ls -> vsize (flat_map le_words ls) + 63 < 4294967296 -> unambiguous6 ls -> names <> [] -> luminance_args opts names 128 ->
  Forall2 (lesson_on disk 128) names ls -> is_std_sort glyph_less sort -> is_std_sort view_less sort_views -> is_std_sort Z.ltb z -> fname <> nname ->
  exists gf nf df n, let disk1 := saved disk gname gf in let disk2 := saved disk1 nname nf in let disk3 := saved disk2 fname df in
    pictures_taught ls n /\
    write_glyphs_main disk (fst (fst progs) :: opts ++ triples names) = Ok (gf, Exits 0) /\
    normalize_main sort sort_views disk1 [snd (fst progs); gname] = Ok (nf, Exits 0) /\
    write_datas_main junk z cx0 disk2 [snd progs; nname] = Ok (df, Exits 0) /\
    forall image text font l rt nan prog, In (image, text, font, l) (combine names ls) -> ~ In image [gname; nname; fname] -> legal6 rt ->
      (forall b im, In b (le_boxes l) -> char_image (le_img l) b im -> matches6 im im) ->
      exists pics ims ts, Forall2 (char_image (le_img l)) (le_boxes l) pics /\ first_seen pics ims /\
        Forall2 (fun im t => exists w others, learnt6 ls im w /\ t = best_text w ++ zero_text others) ims ts /\
        main6 rt nan disk3 [prog; nname; fname; image] =
          Ok (head6 None n ++ framed_texts ims ts ++
              results_lines (words_line (le_words l), words_line (le_words l), text6 (fun _ => None) (heard6 0 (le_boxes l) (le_words l))), Exits 0).
Proof.
  intros HT HR HU Hn Ho F H1 H2 Hz Hf. destruct (chain6 disk 128 opts names ls sort sort_views junk z cx0 progs gname nname HT HR Hn Ho F H1 H2 Hz) as (gf & nf & df & n & P & R & E1 & E2 & E3).
  exists gf, nf, df, n. cbv zeta. split; [exact P|]. split; [exact E1|]. split; [exact E2|]. split; [exact E3|].
  intros image text font l rt nan prog Hin Hi Hrt HM. pose proof (proj1 HT) as HL.
  assert (Hl : In l ls) by (apply in_combine_r in Hin; exact Hin).
  assert (Hon : lesson_on disk 128 (image, text, font) l).
  { clear - F Hin. induction F as [|t l' names ls H F IH]; [destruct Hin|]. destruct Hin as [E|Hin]; [injection E as -> ->; exact H|exact (IH Hin)]. }
  destruct Hon as ((bytes & Eb & Ei) & _). pose proof HL as HL'. rewrite Forall_forall in HL'. destruct (HL' l Hl) as (_ & Hs & Es & _).
  destruct (R rt nan (saved (saved (saved disk gname gf) nname nf) fname df) prog [nname; fname; image] bytes (le_img l) (le_boxes l) (le_words l) None (fun _ => None))
    as (nodes & pics & ims & ts & N & A & B & C & E); try assumption.
  - exists nname, fname, image, []. split; [reflexivity|]. split; [rewrite saved_other by congruence; apply saved_here|]. split; [apply saved_here|]. split; [|reflexivity].
    rewrite !saved_other; [exact Eb|..]; intros ->; apply Hi; cbn; auto.
  - exact (lesson_learnt6 ls l HL HU Hl HM).
  - left. split; reflexivity.
  - exists pics, ims, ts. auto.
Qed.
