(** Proofs about the programs run one after the other. *)
From Verif Require Import Base BaseProofs SortModel SortProofs ImageModel ImageSpec ImageProofs PnmModel BoxModel BoxSpec StratModel ZoneModel DatasModel DatasSpec
  UtfSpec StreamModel GlyphIoModel GlyphIoSpec DatasIoModel TrieModel TrieProofs DictionaryProofs IndexModel FloatModel RecogModel RecogSpec GlyphsModel GlyphsSpec ExtractModel ExtractSpec ExtractProofs
  NormModel NormSpec NormProofs LearnModel LearnSpec LearnProofs LearnProofs3 LearnProofs4 PipelineModel PipelineSpec PipelineProofs2 PipelineProofs4 PipelineProofs5
  ShowModel ShowSpec ShowProofs PrintModel PrintSpec PrintProofs2 ProgModel ProgSpec ProgProofs ChainSpec.
From Coq Require Import Permutation.

Lemma saved_here disk n b : saved disk n b n = Some b.
Proof. unfold saved. destruct (list_eqb n n) eqn:E; [reflexivity|]. assert (H : n = n) by reflexivity. apply list_eqb_eq in H. congruence. Qed.
Lemma saved_other disk n b n' : n' <> n -> saved disk n b n' = disk n'.
Proof. unfold saved. intros H. destruct (list_eqb n' n) eqn:E; [|reflexivity]. apply list_eqb_eq in E. congruence. Qed.

(** * write_glyphs *)
Lemma lessons_files disk lum names : forall ls, Forall2 (lesson_on disk lum) names ls -> Forall good_lesson ls ->
  exists gss, Forall2 (fun l gs => glyphs_for (le_img l) (le_font l) (le_boxes l) (le_words l) gs) ls gss /\ Forall2 (file_glyphs disk lum) names gss.
Proof.
  intros ls F G. destruct (learn_lessons ls [] G) as (gss & HG & _). exists gss. split; [exact HG|]. revert gss HG.
  induction F as [|t l names ls H F IH]; intros gss HG; inversion HG as [|? gs ? gss' Hg HG']; subst; constructor; inversion G as [|? ? Gl G']; subst; [|exact (IH G' _ HG')].
  destruct t as [[i t] f]. destruct H as (Hp & Ht & ->). destruct Gl as (_ & Hs & Es & Hw & _ & Ln & _).
  exists (le_img l), (le_text l), (le_boxes l), (le_words l). auto 10.
Qed.
Lemma write_chain disk lum opts prog names ls : names <> [] -> luminance_args opts names lum -> Forall2 (lesson_on disk lum) names ls -> Forall good_lesson ls ->
  exists gss, Forall2 (fun l gs => glyphs_for (le_img l) (le_font l) (le_boxes l) (le_words l) gs) ls gss /\
    write_glyphs_main disk (prog :: opts ++ triples names) = Ok (write_glyphs (List.concat gss), Exits 0).
Proof.
  intros Hn Ho F G. destruct (lessons_files disk lum names ls F G) as (gss & HG & HF). exists gss. split; [exact HG|].
  destruct Ho as [(-> & -> & H1)|(t & v & -> & H1 & H2 & ->)].
  - exact (write_main_ok disk prog names gss Hn H1 HF).
  - exact (write_main_option disk prog t v names gss H1 H2 Hn HF).
Qed.

(** * The glyphs of the lessons *)
Section Same.
Context (ls : list lesson) (gss : list (list glyph)) (out : list glyph).
Hypothesis (HL : Forall good_lesson ls).
Hypothesis (HW : loadable (flat_map le_words ls)).
Hypothesis (HG : Forall2 (fun l gs => glyphs_for (le_img l) (le_font l) (le_boxes l) (le_words l) gs) ls gss).
Hypothesis (HS : Forall storable out).
Hypothesis (HI : forall im, has_image out im <-> has_image (List.concat gss) im).
Hypothesis (HV : forall im v, labelled out im v <-> labelled (List.concat gss) im v).
Hypothesis (HN : (List.length out <= List.length (List.concat gss))%nat).
Hypothesis (HM : (List.length (flat_map gl_views out) <= List.length (flat_map gl_views (List.concat gss)))%nat).
Hypothesis (HD : forall g, In g out -> gl_views g <> []).

Lemma taught_learnt im w : taught out im w -> learnt ls im w.
Proof.
  intros ((g & Hg & R) & U). destruct (gl_views g) as [|v vs] eqn:Ev; [destruct (HD g Hg Ev)|]. split.
  - exists (gl_img g), (vw_word v). split; [|exact R]. apply (labelled_teaches ls gss HL HG), HV. exists g. split; [exact Hg|]. split; [reflexivity|]. rewrite Ev. left. reflexivity.
  - intros im' w' T R'. destruct (teaches_labelled ls gss HL HG im' w' T) as (v' & Hv & <-). apply HV in Hv as (g' & A & <- & B). exact (U g' v' A R' B).
Qed.
Lemma teaches_image im : (exists w, teaches ls im w) <-> has_image out im.
Proof.
  split.
  - intros (w & T). destruct (teaches_labelled ls gss HL HG im w T) as (v & Hv & _). apply HV in Hv as (g & A & B & _). exists g. auto.
  - intros Hi. apply HI in Hi. destruct (has_image_labelled ls gss HL HG im Hi) as (v & Hv). exists (vw_word v). exact (labelled_teaches ls gss HL HG im v Hv).
Qed.
Lemma prints_lessons junk z cx0 datas : is_std_sort Z.ltb z -> write_datas_file junk z cx0 (write_glyphs out) = Ok (Some datas) ->
  prints_learnt ls (write_glyphs out) datas (vsize out).
Proof.
  intros Hz ED rt nan cx disk prog args bytes img boxes ws lines dict Hrt Hf Eb Hs Es F St NL Hl Hd.
  pose proof (same_trainable ls gss HL HG out HS HI HV HN HM HD HW) as HT.
  destruct (main_taught rt out junk z cx0 datas cx bytes img boxes ws lines dict nan disk prog args Hrt HT Hz ED Eb Hs Es) as (nodes & pics & ims & words & N & A & B & C & E); try assumption.
  - clear - F HL HG HV. induction F as [|b w boxes ws H F IH]; constructor; [|exact IH]. intros im Him. destruct (H im Him) as (R & T). split; [exact R|].
    exact (same_taught ls gss HL HG out HV im w T).
  - apply (lines_file_same (flat_map le_words ls)); [|exact Hl]. intros w. rewrite <- (proj1 (lessons_labels ls gss HL HG)). apply same_labels'; assumption.
  - exists nodes, pics, ims, words. split; [exact N|]. split; [exact A|]. split; [exact B|]. split; [|exact E].
    clear - C HL HG HV HD. induction C as [|im l ims words (w & k & T & El) C IH]; constructor; [|exact IH]. exists w, k. split; [exact (taught_learnt im w T)|exact El].
Qed.
Lemma datas_lessons junk z cx0 : is_std_sort Z.ltb z -> exists datas, write_datas_file junk z cx0 (write_glyphs out) = Ok (Some datas).
Proof.
  intros Hz. pose proof (same_trainable ls gss HL HG out HS HI HV HN HM HD HW) as HT. destruct (trainable_images out HT) as (_ & HR & _).
  pose proof HT as (_ & N & _). unfold vsize in N. destruct (write_datas_table z Hz junk cx0 out HS HR ltac:(lia)) as (ED & _). eexists. exact ED.
Qed.
End Same.

Lemma increasing_nodup out : Forall storable out -> increasing_images out -> NoDup (map gl_img out).
Proof.
  intros HS Hi. induction Hi as [|a out Hi IH F]; [constructor|]. inversion HS as [|? ? (Wa & _) HS']; subst. cbn [map]. constructor; [|exact (IH HS')].
  intros Hin. apply in_map_iff in Hin as (x & Ex & Hx). rewrite Forall_forall in F, HS'. destruct (HS' x Hx) as (Wx & _). exact (before_irrefl a x (wf_full _ Wa) (wf_full _ Wx) (F x Hx) (eq_sym Ex)).
Qed.
Lemma written_file (disk : disk_of_files) gs : Forall storable gs -> forall n, disk n = Some (write_glyphs gs) -> glyph_file (disk n) gs.
Proof. intros HS n E. exists []. rewrite app_nil_r. split; [exact E|]. split; [exact HS|constructor]. Qed.

Lemma normalize_one sort sort_views disk prog name gs nf : Forall storable gs -> disk name = Some (write_glyphs gs) ->
  normalize_files sort sort_views (map write_glyphs [gs]) = Ok (Some nf) -> normalize_main sort sort_views disk [prog; name] = Ok (nf, Exits 0).
Proof.
  intros HS E En. assert (HS1 : Forall (Forall storable) [gs]) by (constructor; [exact HS|constructor]).
  unfold normalize_files in En. rewrite (read_glyph_files_written [gs] HS1 []) in En. cbn [bind app] in En. unfold normalize_main.
  assert (F : Forall2 (fun n gs => glyph_file (disk n) gs) [name] [gs]) by (constructor; [exact (written_file disk gs HS name E)|constructor]).
  rewrite <- (app_nil_r [name]), (read_named disk _ [gs] F [] []). cbn [read_named_files app bind].
  destruct (normalize sort sort_views (List.concat [gs])) as [o| | |]; try discriminate. cbn [bind] in *. congruence.
Qed.
(** * The chain *)
Theorem chain disk lum opts names ls sort sort_views junk z cx0 progs gname nname : teachable ls -> names <> [] -> luminance_args opts names lum ->
  Forall2 (lesson_on disk lum) names ls -> is_std_sort glyph_less sort -> is_std_sort view_less sort_views -> is_std_sort Z.ltb z ->
  exists gf nf df n, pictures_taught ls n /\ prints_learnt ls nf df n /\
    write_glyphs_main disk (fst (fst progs) :: opts ++ triples names) = Ok (gf, Exits 0) /\
    normalize_main sort sort_views (saved disk gname gf) [snd (fst progs); gname] = Ok (nf, Exits 0) /\
    write_datas_main junk z cx0 (saved (saved disk gname gf) nname nf) [snd progs; nname] = Ok (df, Exits 0).
Proof.
  intros (HL & HW) Hn Ho F H1 H2 Hz. destruct (write_chain disk lum opts (fst (fst progs)) names ls Hn Ho F HL) as (gss & HG & E1).
  assert (HS : Forall storable (List.concat gss)) by (apply Forall_concat; exact (lessons_storable ls gss HL HG)).
  assert (HS1 : Forall (Forall storable) [List.concat gss]) by (constructor; [exact HS|constructor]).
  destruct (lessons_labels ls gss HL HG) as (La & Lb). pose proof HW as (_ & V & _).
  assert (HB : Z.of_nat (List.length (flat_map gl_views (List.concat [List.concat gss]))) < 4294967296) by (cbn [List.concat]; rewrite app_nil_r, <- labels_length, La; exact V).
  destruct (normalize_files_ok sort sort_views [List.concat gss] H1 H2 HS1 HB) as (nf & out & En & _ & So & Inc & HI & HV & -> & N1 & N2).
  assert (E2 : normalize_main sort sort_views (saved disk gname (write_glyphs (List.concat gss))) [snd (fst progs); gname] = Ok (write_glyphs out, Exits 0)).
  { apply (normalize_one sort sort_views _ _ _ (List.concat gss)); [exact HS|apply saved_here|exact En]. }
  cbn [List.concat map] in *. rewrite app_nil_r in *.
  assert (HD : forall g, In g out -> gl_views g <> []).
  { intros g Hg. assert (Hi : has_image (List.concat gss) (gl_img g)) by (apply HI; exists g; auto).
    destruct (has_image_labelled ls gss HL HG _ Hi) as (v & Hv). apply HV in Hv as (g' & A & B & C).
    rewrite (increasing_distinct out So Inc g g' Hg A (eq_sym B)). destruct (gl_views g'); [destruct C|discriminate]. }
  destruct (datas_lessons ls gss out HL HW HG So HI HV N1 N2 HD junk z cx0 Hz) as (df & ED).
  exists (write_glyphs (List.concat gss)), (write_glyphs out), df, (vsize out). split; [|split; [|split; [exact E1|split; [exact E2|]]]].
  - exists (map gl_img out). split; [exact (increasing_nodup out So Inc)|]. split; [|unfold vsize; now rewrite map_length].
    intros im. rewrite (teaches_image ls gss out HL HG HI HV). unfold has_image. rewrite in_map_iff. split; intros (g & A & B); exists g; auto.
  - exact (prints_lessons ls gss out HL HW HG So HI HV N1 N2 HD junk z cx0 df Hz ED).
  - exact (write_datas_table_main junk z cx0 _ (snd progs) nname (write_glyphs out) (Some df) (saved_here _ _ _) ED).
Qed.
Theorem chain_reads disk opts names ls sort sort_views junk z cx0 progs gname nname fname : teachable ls -> unambiguous ls -> names <> [] -> luminance_args opts names 128 ->
  Forall2 (lesson_on disk 128) names ls -> is_std_sort glyph_less sort -> is_std_sort view_less sort_views -> is_std_sort Z.ltb z -> fname <> nname ->
  exists gf nf df n, let disk1 := saved disk gname gf in let disk2 := saved disk1 nname nf in let disk3 := saved disk2 fname df in
    pictures_taught ls n /\
    write_glyphs_main disk (fst (fst progs) :: opts ++ triples names) = Ok (gf, Exits 0) /\
    normalize_main sort sort_views disk1 [snd (fst progs); gname] = Ok (nf, Exits 0) /\
    write_datas_main junk z cx0 disk2 [snd progs; nname] = Ok (df, Exits 0) /\
    forall image text font l rt nan cx prog, In (image, text, font, l) (combine names ls) -> ~ In image [gname; nname; fname] -> legal rt ->
      steady (le_boxes l) -> no_lost_break (spoken 0 (le_boxes l) (le_words l)) ->
      exists pics ims words, Forall2 (char_image (le_img l)) (le_boxes l) pics /\ first_seen pics ims /\
        Forall2 (fun im r => exists w k, learnt ls im w /\ r = repeat w (S k)) ims words /\
        ocr2_main rt nan cx disk3 [prog; nname; fname; image] =
          Ok (head_of None n ++ pictures ims words ++
              tail_lines (line_text (le_boxes l) (le_words l)) 0 (vsize (le_boxes l)) (match le_boxes l with [] => nan | _ => [48] end), Exits 0).
Proof.
  intros HT HU Hn Ho F H1 H2 Hz Hf. destruct (chain disk 128 opts names ls sort sort_views junk z cx0 progs gname nname HT Hn Ho F H1 H2 Hz) as (gf & nf & df & n & P & R & E1 & E2 & E3).
  exists gf, nf, df, n. cbv zeta. split; [exact P|]. split; [exact E1|]. split; [exact E2|]. split; [exact E3|].
  intros image text font l rt nan cx prog Hin Hi Hrt St NL. pose proof (proj1 HT) as HL.
  assert (Hl : In l ls) by (apply in_combine_r in Hin; exact Hin).
  assert (Hon : lesson_on disk 128 (image, text, font) l).
  { clear - F Hin. induction F as [|t l' names ls H F IH]; [destruct Hin|]. destruct Hin as [E|Hin]; [injection E as -> ->; exact H|exact (IH Hin)]. }
  destruct Hon as ((bytes & Eb & Ei) & _). pose proof HL as HL'. rewrite Forall_forall in HL'. destruct (HL' l Hl) as (_ & Hs & Es & _).
  destruct (R rt nan cx (saved (saved (saved disk gname gf) nname nf) fname df) prog [nname; fname; image] bytes (le_img l) (le_boxes l) (le_words l) None None)
    as (nodes & pics & ims & words & N & A & B & C & E); try assumption.
  - exists nname, fname, image, []. split; [reflexivity|]. split; [rewrite saved_other by congruence; apply saved_here|]. split; [apply saved_here|]. split; [|split; reflexivity].
    rewrite !saved_other; [exact Eb|..]; intros ->; apply Hi; cbn; auto.
  - exact (lesson_learnt ls l HL HU Hl).
  - left. reflexivity.
  - left. reflexivity.
  - cbn [load_optional] in N. injection N as <-. exists pics, ims, words. auto.
Qed.
