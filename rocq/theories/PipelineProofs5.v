(** Learning, then reading. *)
From Verif Require Import Base BaseProofs SortModel SortProofs ImageModel ImageSpec ImageProofs PnmModel BoxModel BoxSpec BoxProofs StratModel ZoneModel DatasModel DatasSpec
  UtfSpec StreamModel GlyphIoModel GlyphIoSpec DatasIoModel DictIoModel TrieModel TrieSpec TrieProofs SpellSpec
  IndexModel FloatModel RecogModel RecogSpec GlyphsModel GlyphsSpec ExtractModel ExtractSpec ExtractProofs NormModel NormSpec NormProofs
  AssembleModel AssembleSpec LearnModel LearnSpec LearnProofs LearnProofs3 LearnProofs4 PipelineModel PipelineSpec PipelineProofs2 PipelineProofs4.
From Coq Require Import Permutation.

(** * The images that are loaded have two colours *)
Definition two_colours (l : list pixel) : Prop := forall c, In c l -> c = 45 \/ c = 120.
Lemma emit_two cap out v out' : two_colours out -> v = 45 \/ v = 120 -> emit cap out v = Ok out' -> two_colours out'.
Proof. unfold emit. intros H V. destruct (_ <? _); [|discriminate]. intros E. injection E as <-. intros c Hc. apply in_app_or in Hc as [Hc|[<-|[]]]; auto. Qed.
Lemma for_up_inv {St : Type} (body : Z -> St -> res St) (I : St -> Prop) : (forall i s s', I s -> body i s = Ok s' -> I s') ->
  forall n i s s', I s -> for_up n i body s = Ok s' -> I s'.
Proof.
  intros H. induction n as [|n IH]; intros i s s' Hs E; cbn [for_up] in E; [injection E as <-; exact Hs|].
  destruct (body i s) as [s1| | |] eqn:E1; try discriminate. exact (IH _ _ _ (H _ _ _ Hs E1) E).
Qed.
Lemma loaded_two buf lum img : image_of_bytes buf lum = Ok img -> two_colours (idata img).
Proof.
  unfold image_of_bytes. destruct (parse_header buf) as [[h|]| | |]; try discriminate. cbn [bind]. destruct (_ =? 0); [discriminate|]. destruct (negb _); [discriminate|].
  destruct (h_type h =? 54); [|destruct (h_type h =? 52); [|destruct (_ || _); [|discriminate]]].
  - destruct (negb _); [discriminate|]. destruct (decode_p6 _ _ _ _) as [d| | |] eqn:E; try discriminate. cbn [bind]. intros X. injection X as <-. cbn [idata].
    unfold decode_p6 in E. refine (loop_partial _ (fun '(_, out) => two_colours out) two_colours _ _ _ _ _ E); [|intros c []].
    intros [p out] Ho. destruct (p <? _); [|exact Ho]. destruct (rd buf p); try exact I. cbn [bind]. destruct (rd buf (p + 1)); try exact I. cbn [bind].
    destruct (rd buf (p + 2)); try exact I. cbn [bind]. destruct (emit _ _ _) as [o| | |] eqn:Eo; try exact I. cbn [bind].
    apply (emit_two _ _ _ _ Ho) in Eo; [exact Eo|]. unfold threshold. destruct (_ <? _); auto.
  - destruct (negb _); [discriminate|]. destruct (decode_p4 _ _ _ _ _) as [d| | |] eqn:E; try discriminate. cbn [bind]. intros X. injection X as <-. cbn [idata].
    unfold decode_p4 in E. destruct (for_up _ _ _ _) as [[p o]| | |] eqn:Ef; try discriminate. cbn [bind] in E. injection E as <-.
    apply (for_up_inv _ (fun st => two_colours (snd st))) in Ef; [exact Ef| |intros c []].
    clear Ef. intros i [q out] [q' out'] Ho. unfold decode_p4_row. destruct (for_up _ _ _ _) as [[[[p1 c1] i1] o1]| | |] eqn:Er; try discriminate. cbn [bind]. intros X. injection X as <- <-.
    apply (for_up_inv _ (fun st => two_colours (snd st))) in Er; [exact Er| |exact Ho].
    clear Er. intros k [[[p2 c2] i2] o2] [[[p3 c3] i3] o3] H2 H3.
    destruct (if Z.rem i2 8 =? 0 then _ else _) as [[c4 p4]| | |]; try discriminate. cbn [bind] in H3.
    destruct (emit _ _ _) as [o4| | |] eqn:Eo; try discriminate. cbn [bind] in H3. destruct (i2 =? _); [discriminate|]. injection H3 as <- <- <- <-.
    apply (emit_two _ _ _ _ H2) in Eo; [exact Eo|]. destruct (Z.testbit c4 7); auto.
  - destruct (decode_ascii _ _ _) as [[p d]| | |] eqn:E; try discriminate. cbn [bind]. destruct (skip_blank buf p) as [p'| | |]; try discriminate. cbn [bind].
    destruct (negb _); [discriminate|]. intros X. injection X as <-. cbn [idata].
    unfold decode_ascii in E. refine (loop_partial _ (fun '(_, _, out) => two_colours out) (fun '(_, out) => two_colours out) _ _ _ (p, d) _ E); [|intros c []].
    intros [[q k] out] Ho. destruct (q <? _); [|exact Ho]. destruct (rd buf q) as [c| | |]; try exact I. cbn [bind].
    destruct (c =? 32); [exact Ho|]. destruct (c =? 48).
    { destruct (emit _ _ _) as [o| | |] eqn:Eo; try exact I. cbn [bind]. apply (emit_two _ _ _ _ Ho) in Eo; [|auto]. destruct (_ =? _); exact Eo. }
    destruct (c =? 49).
    { destruct (emit _ _ _) as [o| | |] eqn:Eo; try exact I. cbn [bind]. apply (emit_two _ _ _ _ Ho) in Eo; [|auto]. destruct (_ =? _); exact Eo. }
    destruct (c =? 10); [exact Ho|exact I].
Qed.
Lemma pixel_of img c : wf_image img -> In c (idata img) -> exists x y, 0 <= x < iw img /\ 0 <= y < ih img /\ pix img x y = Some c.
Proof.
  intros (W & H & A & L) Hc. apply In_nth_error in Hc as (n & Hn). assert (Ln : (n < List.length (idata img))%nat) by (apply nth_error_Some; congruence).
  assert (W0 : 0 < iw img) by nia. exists (Z.of_nat n mod iw img), (Z.of_nat n / iw img).
  pose proof (Z.mod_pos_bound (Z.of_nat n) (iw img) W0) as M. pose proof (Z.div_mod (Z.of_nat n) (iw img) ltac:(lia)) as D.
  assert (Y0 : 0 <= Z.of_nat n / iw img) by (apply Z.div_pos; lia).
  assert (Y1 : Z.of_nat n / iw img < ih img) by (apply Z.div_lt_upper_bound; lia).
  split; [exact M|]. split; [lia|]. unfold pix.
  destruct (Z.leb_spec 0 (Z.of_nat n mod iw img)); [|lia]. destruct (Z.ltb_spec (Z.of_nat n mod iw img) (iw img)); [|lia].
  destruct (Z.leb_spec 0 (Z.of_nat n / iw img)); [|lia]. destruct (Z.ltb_spec (Z.of_nat n / iw img) (ih img)); [|lia]. cbn [andb].
  replace (Z.of_nat n / iw img * iw img + Z.of_nat n mod iw img) with (Z.of_nat n) by lia. rewrite Nat2Z.id. exact Hn.
Qed.
Lemma pix_in img x y c : pix img x y = Some c -> In c (idata img).
Proof. unfold pix. destruct (_ && _); [|discriminate]. apply nth_error_In. Qed.
Lemma char_two img b im : two_colours (idata img) -> char_image img b im -> ~ In 10 (idata im).
Proof.
  intros T (W & Ew & Eh & P) H. destruct (pixel_of im 10 W H) as (x & y & Hx & Hy & Hp). rewrite Ew in Hx. rewrite Eh in Hy.
  rewrite (P x y Hx Hy) in Hp. apply pix_in, T in Hp. lia.
Qed.

(** * Words as a set *)
Lemma block_same ws ws' : (forall w, In w ws <-> In w ws') -> block ws = block ws'.
Proof.
  intros H. unfold block.
  assert (P : Permutation (nodup (list_eq_dec Z.eq_dec) ws) (nodup (list_eq_dec Z.eq_dec) ws')).
  { apply NoDup_Permutation; try apply NoDup_nodup. intros w. rewrite !nodup_In. apply H. }
  revert P. generalize (nodup (list_eq_dec Z.eq_dec) ws), (nodup (list_eq_dec Z.eq_dec) ws'). intros l l' P. induction P; cbn [fold_right]; lia.
Qed.
Lemma greatest_same ws ws' w : (forall w, In w ws <-> In w ws') -> greatest ws w -> greatest ws' w.
Proof. intros H (A & B). split; [apply H; exact A|]. intros w' Hw'. apply B, H, Hw'. Qed.
Lemma loadable_same ws ws' : (forall w, In w ws <-> In w ws') -> (List.length ws' <= List.length ws)%nat -> loadable ws -> loadable ws'.
Proof.
  intros H L (A & B & C & D). split; [intros w Hw; apply A, H, Hw|]. split; [unfold vsize in *; lia|]. split; [rewrite <- (block_same ws ws' H); exact C|].
  intros w Hw. apply D. apply (greatest_same ws' ws); [|exact Hw]. intros; symmetry; apply H.
Qed.
Lemma lines_file_same ws ws' file : (forall w, In w ws <-> In w ws') -> lines_file ws file -> lines_file ws' file.
Proof.
  intros H [->|(ls & -> & G & S)]; [left; reflexivity|]. right. exists ls. split; [reflexivity|]. split; [exact G|]. intros l Hl.
  destruct (S l Hl) as (S1 & S2). split; [exact S1|]. intros w c Hw. apply S2, H, Hw.
Qed.

(** * The lessons *)
Lemma learn_lessons ls : forall out, Forall good_lesson ls ->
  exists gss, Forall2 (fun l gs => glyphs_for (le_img l) (le_font l) (le_boxes l) (le_words l) gs) ls gss /\
    learn_images (map arguments ls) out = Ok (out ++ write_glyphs (List.concat gss), Learnt).
Proof.
  induction ls as [|l ls IH]; intros out F.
  - exists []. split; [constructor|]. cbn. rewrite app_nil_r. reflexivity.
  - inversion F as [|? ? HF F']; subst. destruct HF as (_ & Hs & Eb & Hw & _ & Hl & _).
    destruct (learn_image_ok (le_img l) (le_text l) (le_font l) (le_boxes l) (le_words l) Hs Eb Hw) as (gs & Hg & El).
    change (map arguments (l :: ls)) with ((le_img l, le_text l, le_font l) :: map arguments ls). cbn [learn_images]. rewrite El. cbn [bind]. unfold learning_end. rewrite Hl, Nat.compare_refl.
    destruct (IH (out ++ write_glyphs gs) F') as (gss & H2 & E). rewrite E. exists (gs :: gss).
    split; [constructor; [exact Hg|exact H2]|]. cbn [List.concat]. unfold write_glyphs. rewrite flat_map_app, <- app_assoc. reflexivity.
Qed.
Lemma glyphs_for_in img font boxes ws gs g : glyphs_for img font boxes ws gs -> In g gs -> exists b w, In (b, w) (combine boxes ws) /\ glyph_for img font b w g.
Proof.
  induction 1 as [ws|boxes|b boxes w ws g' gs Hg _ IH]; intros Hin; try destruct Hin as [].
  - subst g'. exists b, w. split; [left; reflexivity|exact Hg].
  - destruct (IH H) as (b' & w' & A & B). exists b', w'. split; [right; exact A|exact B].
Qed.
Lemma glyphs_for_of img font boxes ws gs b w : glyphs_for img font boxes ws gs -> In (b, w) (combine boxes ws) -> exists g, In g gs /\ glyph_for img font b w g.
Proof.
  induction 1 as [ws|boxes|b' boxes w' ws g' gs Hg _ IH]; intros Hin; [destruct Hin|destruct boxes; destruct Hin|].
  destruct Hin as [E|Hin]; [injection E as -> ->; exists g'; split; [left; reflexivity|exact Hg]|].
  destruct (IH Hin) as (g & A & B). exists g. split; [right; exact A|exact B].
Qed.
Lemma glyphs_for_views img font boxes ws gs : glyphs_for img font boxes ws gs -> List.length boxes = List.length ws -> labels gs = ws /\ List.length gs = List.length ws.
Proof.
  induction 1 as [ws|boxes|b' boxes w' ws g' gs (_ & Hv) _ IH]; intros L.
  - destruct ws; [split; reflexivity|discriminate].
  - split; reflexivity.
  - cbn [List.length] in L. destruct IH as (A & B); [lia|]. cbn [labels flat_map List.length]. split; [|lia]. rewrite Hv. cbn [map vw_word app]. f_equal. exact A.
Qed.
Lemma labels_app a b : labels (a ++ b) = labels a ++ labels b.
Proof. apply flat_map_app. Qed.
Lemma labels_length gs : List.length (labels gs) = List.length (flat_map gl_views gs).
Proof. unfold labels. induction gs as [|g gs IH]; [reflexivity|]. cbn [flat_map]. rewrite !app_length, map_length, IH. reflexivity. Qed.

Section Lessons.
Context (ls : list lesson) (gss : list (list glyph)).
Hypothesis (HL : Forall good_lesson ls).
Hypothesis (HG : Forall2 (fun l gs => glyphs_for (le_img l) (le_font l) (le_boxes l) (le_words l) gs) ls gss).
Notation gs := (List.concat gss).

Lemma lessons_labels : labels gs = flat_map le_words ls /\ List.length gs = List.length (flat_map le_words ls).
Proof.
  pose proof HG as K; clear HG; induction K as [|l gs ls' gss' Hg _ IH]; [split; reflexivity|]. inversion HL as [|? ? G1 G2]; subst. destruct (IH G2) as (A & B).
  destruct G1 as (_ & _ & _ & _ & _ & Ln & _). destruct (glyphs_for_views _ _ _ _ _ Hg Ln) as (C & D).
  cbn [List.concat flat_map]. rewrite labels_app, !app_length, A, B, C, D. split; reflexivity.
Qed.
Lemma lessons_glyph g : In g gs -> exists l b w, In l ls /\ good_lesson l /\ In (b, w) (combine (le_boxes l) (le_words l)) /\ glyph_for (le_img l) (le_font l) b w g.
Proof.
  pose proof HG as K; clear HG; induction K as [|l gs ls' gss' Hg _ IH]; intros Hin; [destruct Hin|]. inversion HL as [|? ? G1 G2]; subst. cbn [List.concat] in Hin.
  apply in_app_or in Hin as [Hin|Hin].
  - destruct (glyphs_for_in _ _ _ _ _ _ Hg Hin) as (b & w & A & B). exists l, b, w. split; [left; reflexivity|]. auto.
  - destruct (IH G2 Hin) as (l' & b & w & A & B). exists l', b, w. split; [right; exact A|exact B].
Qed.
Lemma lessons_of l b w : In l ls -> In (b, w) (combine (le_boxes l) (le_words l)) -> exists g, In g gs /\ glyph_for (le_img l) (le_font l) b w g.
Proof.
  pose proof HG as K; clear HG; induction K as [|l' gs ls' gss' Hg _ IH]; intros Hin Hb; [destruct Hin|]. inversion HL as [|? ? G1 G2]; subst. cbn [List.concat].
  destruct Hin as [<-|Hin].
  - destruct (glyphs_for_of _ _ _ _ _ _ _ Hg Hb) as (g & A & B). exists g. split; [apply in_or_app; left; exact A|exact B].
  - destruct (IH G2 Hin Hb) as (g & A & B). exists g. split; [apply in_or_app; right; exact A|exact B].
Qed.
Lemma lessons_storable : Forall (Forall storable) gss.
Proof.
  pose proof HG as K; clear HG; induction K as [|l gs ls' gss' Hg _ IH]; constructor; inversion HL as [|? ? G1 G2]; subst; [|exact (IH G2)].
  destruct G1 as (_ & _ & _ & Hw & Hf & _). exact (learnt_storable _ _ _ _ _ Hf (text_words_plain _ _ Hw) Hg).
Qed.
Lemma teaches_labelled im w : teaches ls im w -> exists v, labelled gs im v /\ vw_word v = w.
Proof.
  intros (l & b & Hl & Hb & Hc). destruct (lessons_of l b w Hl Hb) as (g & Hg & (Hi & Hv)). exists (mkview w (le_font l) 4294967295). split; [|reflexivity].
  exists g. split; [exact Hg|]. split; [exact (char_image_unique (le_img l) b _ _ Hi Hc)|]. rewrite Hv. left. reflexivity.
Qed.
Lemma labelled_teaches im v : labelled gs im v -> teaches ls im (vw_word v).
Proof.
  intros (g & Hg & <- & Hv). destruct (lessons_glyph g Hg) as (l & b & w & Hl & _ & Hb & (Hi & Ev)). rewrite Ev in Hv. destruct Hv as [<-|[]].
  exists l, b. split; [exact Hl|]. split; [exact Hb|exact Hi].
Qed.
Lemma has_image_labelled im : has_image gs im -> exists v, labelled gs im v.
Proof.
  intros (g & Hg & <-). destruct (lessons_glyph g Hg) as (l & b & w & _ & _ & _ & (_ & Ev)). exists (mkview w (le_font l) 4294967295).
  exists g. split; [exact Hg|]. split; [reflexivity|]. rewrite Ev. left. reflexivity.
Qed.
Lemma lessons_picture im : has_image gs im -> recognisable im /\ ~ In 10 (idata im).
Proof.
  intros (g & Hg & <-). destruct (lessons_glyph g Hg) as (l & b & w & _ & ((bytes & lum & E) & _ & _ & _ & _ & _ & Sm) & Hb & (Hi & _)).
  split; [|exact (char_two _ b _ (loaded_two _ _ _ E) Hi)]. rewrite Forall_forall in Sm. apply in_combine_l in Hb. exact (Sm b Hb _ Hi).
Qed.

(** Glyphs with the same images and labels. *)
Section Same.
Context (out : list glyph) (HS : Forall storable out).
Hypothesis (HI : forall im, has_image out im <-> has_image gs im).
Hypothesis (HV : forall im v, labelled out im v <-> labelled gs im v).
Hypothesis (HN : (List.length out <= List.length gs)%nat).
Hypothesis (HM : (List.length (flat_map gl_views out) <= List.length (flat_map gl_views gs))%nat).
Hypothesis (HD : forall g, In g out -> gl_views g <> []).

Lemma same_labels' w : In w (labels gs) <-> In w (labels out).
Proof.
  unfold labels. rewrite !in_flat_map. split; intros (g & Hg & Hw); apply in_map_iff in Hw as (v & <- & Hv).
  - destruct (proj2 (HV (gl_img g) v)) as (g' & A & _ & B); [exists g; auto|]. exists g'. split; [exact A|]. apply in_map. exact B.
  - destruct (proj1 (HV (gl_img g) v)) as (g' & A & _ & B); [exists g; auto|]. exists g'. split; [exact A|]. apply in_map. exact B.
Qed.
Lemma same_trainable : loadable (flat_map le_words ls) -> trainable out.
Proof.
  intros HW. destruct lessons_labels as (La & Lb). split; [|split].
  - intros g Hg. rewrite Forall_forall in HS. split; [exact (HS g Hg)|].
    assert (Hi : has_image gs (gl_img g)) by (apply HI; exists g; auto). destruct (lessons_picture _ Hi) as (R & T). split; [exact R|]. split; [exact (HD g Hg)|exact T].
  - destruct HW as (_ & V & _). rewrite Lb in HN. unfold vsize in *. lia.
  - apply (loadable_same (labels gs)); [apply same_labels'| |rewrite La; exact HW]. rewrite !labels_length. exact HM.
Qed.
Lemma same_taught im w : learnt ls im w -> taught out im w.
Proof.
  intros ((im' & w' & T & R) & U). split.
  - destruct (teaches_labelled im' w' T) as (v & Hv & _). apply HV in Hv as (g & A & B & _). exists g. split; [exact A|]. rewrite B. exact R.
  - intros g v Hg Rg Hv. apply (U (gl_img g)); [|exact Rg]. apply labelled_teaches, HV. exists g. auto.
Qed.
End Same.
End Lessons.

Lemma increasing_distinct out : Forall storable out -> increasing_images out -> forall g g', In g out -> In g' out -> gl_img g = gl_img g' -> g = g'.
Proof.
  intros HS Hi. induction Hi as [|a out Hi IH F]; intros g g' Hg Hg' E; [destruct Hg|]. inversion HS as [|? ? (Wa & _) HS']; subst. rewrite Forall_forall in F, HS'.
  assert (N : forall x, In x out -> gl_img x <> gl_img a).
  { intros x Hx Ex. destruct (HS' x Hx) as (Wx & _). exact (before_irrefl a x (wf_full _ Wa) (wf_full _ Wx) (F x Hx) (eq_sym Ex)). }
  destruct Hg as [<-|Hg], Hg' as [<-|Hg']; [reflexivity|exfalso; exact (N g' Hg' (eq_sym E))|exfalso; exact (N g Hg E)|].
  apply IH; try assumption. apply Forall_forall. exact HS'.
Qed.
Lemma lessons_read ls gss out junk z cx0 : Forall good_lesson ls -> loadable (flat_map le_words ls) ->
  Forall2 (fun l gs => glyphs_for (le_img l) (le_font l) (le_boxes l) (le_words l) gs) ls gss -> Forall storable out ->
  (forall im, has_image out im <-> has_image (List.concat gss) im) -> (forall im v, labelled out im v <-> labelled (List.concat gss) im v) ->
  (List.length out <= List.length (List.concat gss))%nat -> (List.length (flat_map gl_views out) <= List.length (flat_map gl_views (List.concat gss)))%nat ->
  (forall g, In g out -> gl_views g <> []) -> is_std_sort Z.ltb z ->
  exists df, write_datas_file junk z cx0 (write_glyphs out) = Ok (Some df) /\ reads_learnt ls (write_glyphs out) df.
Proof.
  intros HL HW HG HS HI HV HN HM HD Hz. pose proof (same_trainable ls gss HL HG out HS HI HV HN HM HD HW) as HT.
  destruct (trainable_images out HT) as (_ & HR & _). pose proof HT as (_ & N & _). unfold vsize in N.
  destruct (write_datas_table z Hz junk cx0 out HS HR ltac:(lia)) as (ED & _). eexists. split; [exact ED|].
  intros rt cx bytes img boxes ws lines dict Hrt Eb Hs Es F St NL Hl Hd.
  apply (read_taught rt out junk z cx0 _ cx bytes img boxes ws lines dict Hrt HT Hz ED Eb Hs Es); try assumption.
  - clear - F HL HG HV. induction F as [|b w boxes ws H F IH]; constructor; [|exact IH]. intros im Him. destruct (H im Him) as (R & T). split; [exact R|].
    exact (same_taught ls gss HL HG out HV im w T).
  - apply (lines_file_same (flat_map le_words ls)); [|exact Hl]. intros w. rewrite <- (proj1 (lessons_labels ls gss HL HG)). apply same_labels'; assumption.
Qed.
Lemma learn_and_read ls sort sort_views junk z cx0 : teachable ls -> is_std_sort glyph_less sort -> is_std_sort view_less sort_views -> is_std_sort Z.ltb z ->
  exists gf nf df, learn_images (map arguments ls) [] = Ok (gf, Learnt) /\ normalize_files sort sort_views [gf] = Ok (Some nf) /\
    write_datas_file junk z cx0 nf = Ok (Some df) /\ reads_learnt ls nf df.
Proof.
  intros (HL & HW) H1 H2 Hz. destruct (learn_lessons ls [] HL) as (gss & HG & E). cbn [app] in E.
  pose proof (lessons_storable ls gss HL HG) as HS.
  assert (HS1 : Forall (Forall storable) [List.concat gss]) by (constructor; [apply Forall_concat; exact HS|constructor]).
  destruct (lessons_labels ls gss HL HG) as (La & Lb). pose proof HW as (_ & V & _).
  destruct (normalize_files_ok sort sort_views [List.concat gss] H1 H2 HS1) as (nf & out & En & _ & So & Inc & HI & HV & -> & N1 & N2).
  { cbn [List.concat]. rewrite app_nil_r, <- labels_length, La. exact V. }
  cbn [List.concat map] in *. rewrite app_nil_r in *.
  assert (HD : forall g, In g out -> gl_views g <> []).
  { intros g Hg. assert (Hi : has_image (List.concat gss) (gl_img g)) by (apply HI; exists g; auto).
    destruct (has_image_labelled ls gss HL HG _ Hi) as (v & Hv). apply HV in Hv as (g' & A & B & C).
    rewrite (increasing_distinct out So Inc g g' Hg A (eq_sym B)). destruct (gl_views g'); [destruct C|discriminate]. }
  destruct (lessons_read ls gss out junk z cx0 HL HW HG So HI HV N1 N2 HD Hz) as (df & Ed & R).
  exists (write_glyphs (List.concat gss)), (write_glyphs out), df. auto.
Qed.
Lemma learn_and_read_raw ls junk z cx0 : teachable ls -> is_std_sort Z.ltb z ->
  exists gf df, learn_images (map arguments ls) [] = Ok (gf, Learnt) /\ write_datas_file junk z cx0 gf = Ok (Some df) /\ reads_learnt ls gf df.
Proof.
  intros (HL & HW) Hz. destruct (learn_lessons ls [] HL) as (gss & HG & E). cbn [app] in E.
  assert (HS : Forall storable (List.concat gss)) by (apply Forall_concat; exact (lessons_storable ls gss HL HG)).
  destruct (lessons_read ls gss (List.concat gss) junk z cx0 HL HW HG HS ltac:(intros; reflexivity) ltac:(intros; reflexivity) ltac:(lia) ltac:(lia)) as (df & Ed & R); [|exact Hz|].
  - intros g Hg. destruct (lessons_glyph ls gss HL HG g Hg) as (l & b & w & _ & _ & _ & (_ & ->)). discriminate.
  - exists (write_glyphs (List.concat gss)), df. auto.
Qed.

(** * Reading a lesson *)
Lemma resembles_refl im : recognisable im -> resembles im im.
Proof.
  intros R. apply (resembles_iff (isort Z.ltb)); [apply isort_is_sort|exact R|exact R|]. intros s Hs. rewrite Z.sub_diag.
  cbn in Hs. repeat (destruct Hs as [<-|Hs]; [vm_compute; reflexivity|]). destruct Hs.
Qed.
Lemma lesson_learnt ls l : Forall good_lesson ls -> unambiguous ls -> In l ls ->
  Forall2 (fun b w => forall im, char_image (le_img l) b im -> recognisable im /\ learnt ls im w) (le_boxes l) (le_words l).
Proof.
  intros HL HU Hl. pose proof HL as HL'. rewrite Forall_forall in HL'. destruct (HL' l Hl) as (_ & _ & _ & _ & _ & Ln & Sm).
  assert (G : forall boxes ws, List.length boxes = List.length ws -> (forall b w, In (b, w) (combine boxes ws) -> In (b, w) (combine (le_boxes l) (le_words l))) ->
    Forall (small_character (le_img l)) boxes -> Forall2 (fun b w => forall im, char_image (le_img l) b im -> recognisable im /\ learnt ls im w) boxes ws).
  { induction boxes as [|b boxes IH]; intros [|w ws] L Hin S'; try discriminate; constructor; inversion S' as [|? ? S1 S2]; subst.
    - intros im Him. pose proof (S1 im Him) as R. split; [exact R|].
      assert (T : teaches ls im w) by (exists l, b; split; [exact Hl|]; split; [apply Hin; left; reflexivity|exact Him]).
      split; [exists im, w; split; [exact T|exact (resembles_refl im R)]|]. intros im' w' T' R'. symmetry. exact (HU im w im' w' T T' R').
    - apply IH; [cbn [List.length] in L; lia|intros b' w' H; apply Hin; right; exact H|exact S2]. }
  apply G; [exact Ln|auto|exact Sm].
Qed.
Lemma read_lesson ls sort sort_views junk z cx0 : teachable ls -> unambiguous ls -> is_std_sort glyph_less sort -> is_std_sort view_less sort_views -> is_std_sort Z.ltb z ->
  exists gf nf df, learn_images (map arguments ls) [] = Ok (gf, Learnt) /\ normalize_files sort sort_views [gf] = Ok (Some nf) /\
    write_datas_file junk z cx0 nf = Ok (Some df) /\
    forall l rt cx bytes lines dict, In l ls -> legal rt -> image_of_bytes bytes 128 = Ok (le_img l) -> steady (le_boxes l) -> no_lost_break (spoken 0 (le_boxes l) (le_words l)) ->
      lines_file (flat_map le_words ls) lines -> dict_file (le_words l) dict ->
      extract_text rt cx nf df bytes lines dict = Ok (line_text (le_boxes l) (le_words l), 0, vsize (le_boxes l)).
Proof.
  intros HT HU H1 H2 Hz. destruct (learn_and_read ls sort sort_views junk z cx0 HT H1 H2 Hz) as (gf & nf & df & E1 & E2 & E3 & R). exists gf, nf, df.
  split; [exact E1|]. split; [exact E2|]. split; [exact E3|]. intros l rt cx bytes lines dict Hl Hrt Eb St NL Hlf Hd. pose proof (proj1 HT) as HL.
  pose proof HL as HL'. rewrite Forall_forall in HL'. destruct (HL' l Hl) as (_ & Hs & Es & _).
  apply (R rt cx bytes (le_img l)); try assumption. exact (lesson_learnt ls l HL HU Hl).
Qed.
