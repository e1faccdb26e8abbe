(** Proofs about the whole output of ocr2_extract_text. *)
From Verif Require Import Base BaseProofs SortModel ImageModel ImageSpec PnmModel BoxModel BoxSpec StratModel ZoneModel DatasModel DatasSpec StreamModel StreamProofs GlyphIoModel GlyphIoSpec
  DatasIoModel DictIoModel TrieModel TrieProofs IndexModel FloatModel RecogModel RecogSpec GlyphsModel GlyphsSpec FilterModel FilterSpec ExtractModel ExtractSpec ExtractProofs
  AssembleModel AssembleSpec LearnModel PipelineModel PipelineSpec PipelineProofs2 PipelineProofs3 PipelineProofs4 ReportModel FloatSpec FloatProofs ReportProofs ShowModel ShowSpec FormatModel FormatSpec FormatProofs PrintModel PrintSpec LoadProofs PrintProofs.
From Coq Require Import SpecFloat QArith Qpower.
Local Open Scope Z_scope.

(** * Numbers *)
Lemma print_double_whole nan n : 0 <= n < 2 ^ 53 -> number_text (inject_Z n) (print_double nan (double_of n)).
Proof.
  intros Hn. destruct n as [|p|p]; [left; split; reflexivity| |lia].
  unfold double_of, binary_normalize, binary_round. fold fexp'. rewrite Z.add_0_r.
  pose proof (digits_bounds p) as B. set (d := Z.pos (digits2_pos p)) in *.
  assert (Hd : 1 <= d <= 53).
  { split; [unfold d; lia|]. destruct (Z.le_gt_cases d 53); [assumption|].
    assert (2 ^ 53 <= 2 ^ (d - 1)) by (apply Z.pow_le_mono_r; lia). lia. }
  replace (fexp' d) with (d - 53) by (rewrite fexp_eq; lia). unfold shl_align.
  destruct (d - 53 - 0) as [|k|k] eqn:Ek; [|lia|].
  - assert (Ed : d = 53) by lia. rewrite Ed in *. rewrite round_exact by lia. destruct (print_double_shown nan false p 0 ltac:(lia) ltac:(lia)) as (t & -> & S1).
    apply shown_eq with (2 := S1). unfold binary. change ((2 # 1) ^ 0)%Q with 1%Q. apply Qmult_1_r.
  - assert (Ed : d = 53 - Z.pos k) by lia. rewrite Ed in *.
    assert (P : 0 < 2 ^ Z.pos k) by (apply Z.pow_pos_nonneg; lia).
    assert (R : 2 ^ 52 <= Z.pos (Zpower.shift_pos k p) < 2 ^ 53).
    { rewrite shift_pos_mul.
      replace (2 ^ 52) with (2 ^ (53 - Z.pos k - 1) * 2 ^ Z.pos k) by (rewrite <- Z.pow_add_r by lia; f_equal; lia).
      replace (2 ^ 53) with (2 ^ (53 - Z.pos k) * 2 ^ Z.pos k) by (rewrite <- Z.pow_add_r by lia; f_equal; lia).
      split; [apply Z.mul_le_mono_nonneg_r; lia|apply Z.mul_lt_mono_pos_r; lia]. }
    rewrite round_exact by (exact R || lia). destruct (print_double_shown nan false (Zpower.shift_pos k p) (53 - Z.pos k - 53) (proj2 R) ltac:(lia)) as (t & -> & S1).
    apply shown_eq with (2 := S1). unfold binary. rewrite shift_pos_mul. replace (53 - Z.pos k - 53) with (- Z.pos k) by lia.
    rewrite inject_Z_mult, Zpower_Qpower, Qpower_opp by lia. change (inject_Z 2) with (2 # 1)%Q.
    pose proof (Qpower_not_0 (2 # 1) (Z.pos k) ltac:(discriminate)). field. assumption.
Qed.

(** * The lines *)
Definition rest_of (infos : list word_infos) (g : glyphs_table) (nodes : list fnode) (s : lstate) : res (list Z * Z) :=
  st <- filter_by_lines infos (l_store s) (l_amb s) (l_boxes s) ;;
  '(st, _) <- filter_by_font st (l_amb s) ;;
  assemble g nodes st (l_amb s) (l_spaces s ++ [u32 (vsize (l_amb s))]).
Lemma extract_rest rt cx glyphs datas image lines dict nodes g infos t img s :
  load_all rt glyphs datas lines dict = Ok (nodes, g, infos, t) -> image_of_bytes image 128 = Ok img -> read_line (rt_rec rt t) img cx = Ok s ->
  extract_text rt cx glyphs datas image lines dict = '(text, count) <- rest_of infos g nodes s ;; Ok (text, count, vsize (l_amb s)).
Proof.
  intros EL EI ER. unfold extract_text. rewrite EL. cbn [bind]. rewrite EI. cbn [bind]. fold (rt_rec rt t). rewrite ER. cbn [bind]. unfold rest_of.
  destruct (filter_by_lines _ _ _ _) as [st| | |]; [|reflexivity..]. cbn [bind]. destruct (filter_by_font _ _) as [[st' f]| | |]; reflexivity.
Qed.

Lemma option_load {A} disk (read : istream -> res (A * istream)) (d : A) o file : option_file disk o file ->
  match o with Some f => load_disk disk read f | None => Ok d end = load_optional read d file.
Proof.
  unfold option_file. destruct o as [f|]; [|intros ->; reflexivity]. intros (b & E & ->). unfold load_disk. rewrite E. reflexivity.
Qed.
Lemma option_shown disk o file nodes : option_file disk o file ->
  match o with Some _ => report_line (str "dict ? ") (str (if null nodes then "false" else "true")%string) | None => [] end =
  dict_line (dict_shown file nodes).
Proof.
  unfold option_file. destruct o as [f|]; [|intros ->; reflexivity]. intros (b & E & ->). destruct nodes; reflexivity.
Qed.

(** What main does after the files are opened. *)
Definition main_of (rt : runtime) (nan : list Z) (cx : ctxs) (glyphs datas : list Z) (picture : res image) (lines dict : option (list Z)) : res (list Z * ended) :=
  attempt [] (load_optional read_dict [] dict) (fun nodes =>
  let out := dict_line (dict_shown dict nodes) in
  attempt out (load_file (read_datas all_strategies) datas) (fun cols =>
  let out := out ++ report_line (str "datas.size(): ") (print_uint (datas_size cols)) in
  attempt out (load_file load_glyphs glyphs) (fun g =>
  let out := out ++ report_line (str "glyphs.size(): ") (print_uint (vsize (gt_views g))) in
  if negb (vsize (gt_views g) =? datas_size cols) then Ok (out, Aborts ExBadLength)
  else
  attempt out (load_optional read_words_lines [] lines) (fun ls =>
  attempt out (infos <- words_infos (rt_lines rt) g ls ;; t <- make_table rt cols (gt_views g) ;; Ok (infos, t)) (fun '(infos, t) =>
  let out := out ++ report_line (str "go") [] in
  attempt out picture (fun img =>
  attempt out (print_line g (rt_rec rt t) img cx) (fun '(s, chars) =>
  let out := out ++ chars in
  attempt out (rest_of infos g nodes s) (fun '(text, count) =>
  Ok (out ++ tail_lines text count (vsize (l_amb s)) (print_double nan (unrecognized_rate count (vsize (l_amb s)))), Exits 0))))))))).
Lemma main_files rt nan cx disk prog args glyphs datas image lines dict : files_are disk args glyphs datas image lines dict ->
  ocr2_main rt nan cx disk (prog :: args) = main_of rt nan cx glyphs datas (image_of_bytes image 128) lines dict.
Proof.
  intros (fg & fd & fi & options & -> & Eg & Ed & Ei & Ol & Od). unfold ocr2_main, main_of.
  rewrite (option_load disk read_dict [] _ _ Od). rewrite (option_load disk read_words_lines [] _ _ Ol).
  unfold load_disk. rewrite Eg, Ed, Ei. unfold load_image.
  destruct (load_optional read_dict [] dict) as [nodes| | |]; [|reflexivity..]. cbn [attempt]. rewrite (option_shown disk _ _ nodes Od). reflexivity.
Qed.

Lemma main_loaded rt nan cx glyphs datas picture lines dict nodes g infos t : load_all rt glyphs datas lines dict = Ok (nodes, g, infos, t) ->
  main_of rt nan cx glyphs datas picture lines dict =
  (let out := head_of (dict_shown dict nodes) (vsize (gt_views g)) in
   attempt out picture (fun img =>
   attempt out (print_line g (rt_rec rt t) img cx) (fun '(s, chars) =>
   attempt (out ++ chars) (rest_of infos g nodes s) (fun '(text, count) =>
   Ok ((out ++ chars) ++ tail_lines text count (vsize (l_amb s)) (print_double nan (unrecognized_rate count (vsize (l_amb s)))), Exits 0))))).
Proof.
  unfold load_all, main_of. destruct (load_optional read_dict [] dict) as [nodes0| | |]; try discriminate. cbn [bind attempt].
  destruct (load_file (read_datas all_strategies) datas) as [cols| | |]; try discriminate. cbn [bind attempt].
  destruct (load_file load_glyphs glyphs) as [g0| | |]; try discriminate. cbn [bind attempt].
  destruct (negb (vsize (gt_views g0) =? datas_size cols)) eqn:N; try discriminate. cbn [bind attempt].
  destruct (load_optional read_words_lines [] lines) as [ls| | |]; try discriminate. cbn [bind attempt].
  destruct (words_infos (rt_lines rt) g0 ls) as [infos0| | |]; try discriminate. cbn [bind attempt].
  destruct (make_table rt cols (gt_views g0)) as [t0| | |]; try discriminate. cbn [bind attempt].
  intros [= -> -> -> ->]. apply negb_false_iff, Z.eqb_eq in N. rewrite <- N.
  assert (E : ((dict_line (dict_shown dict nodes) ++
     report_line (str "datas.size(): ") (print_uint (vsize (gt_views g)))) ++ report_line (str "glyphs.size(): ") (print_uint (vsize (gt_views g)))) ++ report_line (str "go") [] =
     head_of (dict_shown dict nodes) (vsize (gt_views g))).
  { unfold head_of, head_lines, report_line, go_line. rewrite <- !app_assoc. reflexivity. }
  rewrite E. reflexivity.
Qed.

Lemma main_refused rt nan cx glyphs datas picture lines dict e : load_all rt glyphs datas lines dict = Throw e ->
  exists d n m out rest, main_of rt nan cx glyphs datas picture lines dict = Ok (out, Aborts e) /\ head_lines d n m = out ++ rest.
Proof.
  unfold load_all, main_of. destruct (load_optional read_dict [] dict) as [nodes|e'| |]; try discriminate; cbn [bind attempt];
    [|intros [= ->]; exists None, 0, 0; do 2 eexists; split; [reflexivity|reflexivity]].
  set (o1 := dict_line (dict_shown dict nodes)).
  assert (H : forall n m, head_lines (dict_shown dict nodes) n m = o1 ++ report_line (str "datas.size(): ") (print_uint n) ++ report_line (str "glyphs.size(): ") (print_uint m)).
  { intros n m. unfold head_lines, o1, report_line. rewrite <- !app_assoc. reflexivity. }
  clearbody o1.
  destruct (load_file (read_datas all_strategies) datas) as [cols|e'| |]; try discriminate; cbn [bind attempt];
    [|intros [= ->]; exists (dict_shown dict nodes), 0, 0; do 2 eexists; split; [reflexivity|apply H]].
  destruct (load_file load_glyphs glyphs) as [g|e'| |]; try discriminate; cbn [bind attempt];
    [|intros [= ->]; exists (dict_shown dict nodes), (datas_size cols), 0; do 2 eexists; split; [reflexivity|rewrite H, app_assoc; reflexivity]].
  assert (G : forall e0, exists d n m out rest, Ok ((o1 ++ report_line (str "datas.size(): ") (print_uint (datas_size cols))) ++ report_line (str "glyphs.size(): ") (print_uint (vsize (gt_views g))), Aborts e0) =
     Ok (out, Aborts e0) /\ head_lines d n m = out ++ rest).
  { intros e0. exists (dict_shown dict nodes), (datas_size cols), (vsize (gt_views g)), (head_lines (dict_shown dict nodes) (datas_size cols) (vsize (gt_views g))), [].
    rewrite app_nil_r. split; [|reflexivity]. rewrite H, <- app_assoc. reflexivity. }
  destruct (negb _); [intros [= <-]; apply G|].
  destruct (load_optional read_words_lines [] lines) as [ls|e'| |]; try discriminate; cbn [bind attempt]; [|intros [= ->]; apply G].
  destruct (words_infos (rt_lines rt) g ls) as [infos|e'| |]; try discriminate; cbn [bind attempt]; [|intros [= ->]; apply G].
  destruct (make_table rt cols (gt_views g)) as [t|e'| |]; try discriminate; cbn [bind attempt]. intros [= ->]; apply G.
Qed.

Lemma app3 {A} (a b c : list A) : (a ++ b) ++ c = a ++ b ++ c.
Proof. symmetry. apply app_assoc. Qed.
Lemma main_output rt nan cx disk prog args glyphs datas image lines dict out : legal rt -> files_are disk args glyphs datas image lines dict ->
  ocr2_main rt nan cx disk (prog :: args) = Ok (out, Exits 0) ->
  exists nodes g infos t text unknown count chars, load_all rt glyphs datas lines dict = Ok (nodes, g, infos, t) /\
    extract_text rt cx glyphs datas image lines dict = Ok (text, unknown, count) /\
    out = head_of (dict_shown dict nodes) (vsize (gt_views g)) ++ chars ++ tail_lines text unknown count (print_double nan (unrecognized_rate unknown count)) /\
    forall img boxes, image_of_bytes image 128 = Ok img -> box_searchable img -> segment img = Ok boxes -> Forall (small_character img) boxes ->
      full_table t -> exists st, printed (rt_rec rt t) img g boxes st chars.
Proof.
  intros HL F. rewrite (main_files rt nan cx disk prog args _ _ _ _ _ F). intros H.
  destruct (load_all rt glyphs datas lines dict) as [[[[nodes g] infos] t]|e| |] eqn:EL.
  - rewrite (main_loaded rt nan cx glyphs datas _ lines dict nodes g infos t EL) in H. cbv zeta in H.
    destruct (image_of_bytes image 128) as [img| | |] eqn:EI; try discriminate H. cbn [attempt] in H.
    destruct (print_line g (rt_rec rt t) img cx) as [[s chars]| | |] eqn:EP; try discriminate H. cbn [attempt] in H.
    destruct (rest_of infos g nodes s) as [[text count]| | |] eqn:ER; try discriminate H. cbn [attempt] in H. injection H as <-.
    pose proof (print_line_forget _ _ _ _ _ _ EP) as RL.
    exists nodes, g, infos, t, text, count, (vsize (l_amb s)), chars. split; [reflexivity|]. split.
    { rewrite (extract_rest rt cx glyphs datas image lines dict nodes g infos t img s EL EI RL), ER. reflexivity. }
    split; [apply app3|]. intros img' boxes E' Hs Eb SM HF. pose proof (loaded_recogniser rt _ _ _ _ _ _ _ _ HL EL HF) as HE. assert (img' = img) by congruence. subst img'.
    destruct (print_line_ok (rt_rec rt t) img HE Hs g boxes cx Eb SM) as [P _]. exists (l_store s). apply (P s chars EP).
  - destruct (main_refused rt nan cx glyphs datas (image_of_bytes image 128) lines dict e EL) as (d & n & m & o & r & E & _). rewrite E in H. discriminate H.
  - exfalso. revert H EL. unfold main_of, load_all. destruct (load_optional read_dict [] dict) as [nodes| | |]; try discriminate. cbn [bind attempt].
    destruct (load_file (read_datas all_strategies) datas) as [cols| | |]; try discriminate. cbn [bind attempt].
    destruct (load_file load_glyphs glyphs) as [g0| | |]; try discriminate. cbn [bind attempt]. destruct (negb _); [discriminate|].
    destruct (load_optional read_words_lines [] lines) as [ls| | |]; try discriminate. cbn [bind attempt].
    destruct (words_infos (rt_lines rt) g0 ls) as [infos0| | |]; try discriminate. cbn [bind attempt].
    destruct (make_table rt cols (gt_views g0)) as [t0| | |]; discriminate.
  - exfalso. revert H EL. unfold main_of, load_all. destruct (load_optional read_dict [] dict) as [nodes| | |]; try discriminate. cbn [bind attempt].
    destruct (load_file (read_datas all_strategies) datas) as [cols| | |]; try discriminate. cbn [bind attempt].
    destruct (load_file load_glyphs glyphs) as [g0| | |]; try discriminate. cbn [bind attempt]. destruct (negb _); [discriminate|].
    destruct (load_optional read_words_lines [] lines) as [ls| | |]; try discriminate. cbn [bind attempt].
    destruct (words_infos (rt_lines rt) g0 ls) as [infos0| | |]; try discriminate. cbn [bind attempt].
    destruct (make_table rt cols (gt_views g0)) as [t0| | |]; discriminate.
Qed.

Lemma rate_text nan unknown count : 0 <= unknown -> unknown * 100 < 4294967296 -> count <> 0 ->
  number_text (inject_Z (100 * unknown)) (print_double nan (unrecognized_rate unknown count)).
Proof.
  intros H0 H1 Hc. rewrite rate_ok by assumption. apply print_double_whole. change (2 ^ 53) with 9007199254740992. lia.
Qed.

Lemma main_refused_files rt nan cx disk prog args glyphs datas image lines dict e : files_are disk args glyphs datas image lines dict ->
  load_all rt glyphs datas lines dict = Throw e ->
  exists d n m out rest, ocr2_main rt nan cx disk (prog :: args) = Ok (out, Aborts e) /\ head_lines d n m = out ++ rest.
Proof. intros F. rewrite (main_files rt nan cx disk prog args _ _ _ _ _ F). apply main_refused. Qed.
Lemma main_refused_image rt nan cx disk prog args glyphs datas image lines dict e nodes g infos t : files_are disk args glyphs datas image lines dict ->
  load_all rt glyphs datas lines dict = Ok (nodes, g, infos, t) -> image_of_bytes image 128 = Throw e ->
  ocr2_main rt nan cx disk (prog :: args) = Ok (head_of (dict_shown dict nodes) (vsize (gt_views g)), Aborts e).
Proof.
  intros F EL EI. rewrite (main_files rt nan cx disk prog args _ _ _ _ _ F), (main_loaded rt nan cx glyphs datas _ lines dict nodes g infos t EL).
  cbv zeta. rewrite EI. reflexivity.
Qed.

(** * Taught lines *)
Lemma uniform_words g l w wid : word_text g wid = Ok w -> (forall v, In v l -> ov_word v = wid) -> words_are g l (repeat w (List.length l)).
Proof.
  intros E. induction l as [|v l IH]; intros H; [constructor|]. cbn [List.length repeat]. constructor; [rewrite (H v (or_introl eq_refl)); exact E|].
  apply IH. intros v' I. apply H. right. exact I.
Qed.
Lemma words_are_unique g l : forall ws ws', words_are g l ws -> words_are g l ws' -> ws = ws'.
Proof.
  induction l as [|v l IH]; intros ws ws' H H'; inversion H; inversion H'; subst; [reflexivity|]. f_equal; [congruence|]. eapply IH; eassumption.
Qed.

Lemma load_all_dict rt glyphs datas lines dict nodes g infos t : load_all rt glyphs datas lines dict = Ok (nodes, g, infos, t) -> load_optional read_dict [] dict = Ok nodes.
Proof.
  unfold load_all. intros EL. destruct (load_optional read_dict [] dict) as [n0| | |]; try discriminate EL. cbn [bind] in EL.
  destruct (load_file (read_datas all_strategies) datas) as [cols| | |]; try discriminate EL. cbn [bind] in EL.
  destruct (load_file load_glyphs glyphs) as [g0| | |]; try discriminate EL. cbn [bind] in EL. destruct (negb _); [discriminate EL|].
  destruct (load_optional read_words_lines [] lines) as [ls| | |]; try discriminate EL. cbn [bind] in EL.
  destruct (words_infos (rt_lines rt) g0 ls) as [i0| | |]; try discriminate EL. cbn [bind] in EL.
  destruct (make_table rt cols (gt_views g0)) as [t0| | |]; try discriminate EL. cbn [bind] in EL. injection EL as -> _ _ _. reflexivity.
Qed.

Lemma main_taught rt gs junk z cx0 datas cx bytes img boxes ws lines dict nan disk prog args : legal rt -> trainable gs -> is_std_sort Z.ltb z ->
  write_datas_file junk z cx0 (write_glyphs gs) = Ok (Some datas) -> image_of_bytes bytes 128 = Ok img -> box_searchable img -> segment img = Ok boxes ->
  Forall2 (word_taught gs img) boxes ws -> steady boxes -> no_lost_break (spoken 0 boxes ws) -> lines_file (labels gs) lines -> dict_file ws dict ->
  files_are disk args (write_glyphs gs) datas bytes lines dict ->
  exists nodes pics ims words, load_optional read_dict [] dict = Ok nodes /\ Forall2 (char_image img) boxes pics /\ first_seen pics ims /\
    Forall2 (fun im l => exists w k, taught gs im w /\ l = repeat w (S k)) ims words /\
    ocr2_main rt nan cx disk (prog :: args) =
      Ok (head_of (dict_shown dict nodes) (vsize gs) ++ pictures ims words ++ tail_lines (line_text boxes ws) 0 (vsize boxes) (match boxes with [] => nan | _ => [48] end), Exits 0).
Proof.
  intros HL HT Hz ED EI Hs Eb F St NL Hl Hd FA.
  pose proof (read_taught rt gs junk z cx0 datas cx bytes img boxes ws lines dict HL HT Hz ED EI Hs Eb F St NL Hl Hd) as EX.
  destruct (load_all_ok rt HL gs HT junk z Hz cx0 datas ED ws lines dict Hl Hd) as (nodes & g & infos & t & wid & fid & EL & LD & TS & TC & TG & TW).
  destruct (trainable_images gs HT) as (_ & _ & HR).
  set (e := rt_rec rt t).
  assert (Rec : forall im w, recognisable im -> taught gs im w -> (exists l, recognised e im l) /\ forall l, recognised e im l -> l <> [] /\ forall v, In v l -> ov_word v = wid w)
    by (intros im w; exact (taught_recognised rt HL z Hz gs wid fid t HR TS TC TG im w)).
  assert (HE : sound_recogniser e) by exact (rt_sound rt HL t TS).
  assert (HRb : Forall (small_character img) boxes).
  { clear - F. induction F as [|b w boxes ws H F IH]; constructor; [|exact IH]. intros im Him. apply (H im Him). }
  assert (TL : forall im w, taught gs im w -> word_text g (wid w) = Ok w).
  { intros im w T. apply TW. apply (taught_label gs im); [|exact T]. intros g0 Ig. apply (proj1 HT g0 Ig). }
  assert (LG : Forall (legible e img g) boxes).
  { clear - F Rec TL. induction F as [|b w boxes ws H F IH]; constructor; [|exact IH]. intros im l v Ci Rl Iv. destruct (H im Ci) as [R T].
    exists w. rewrite (proj2 (proj2 (Rec im w R T) l Rl) v Iv). exact (TL im w T). }
  assert (RL : exists s, read_line e img cx = Ok s).
  { unfold extract_text in EX. rewrite EL in EX. cbn [bind] in EX. rewrite EI in EX. cbn [bind] in EX. fold (rt_rec rt t) in EX. fold e in EX.
    destruct (read_line e img cx) as [s| | |]; try discriminate EX. exists s. reflexivity. }
  destruct RL as [s RL]. rewrite (extract_rest rt cx _ _ _ _ _ nodes g infos t img s EL EI RL) in EX.
  destruct (rest_of infos g nodes s) as [[text count]| | |] eqn:ER; try discriminate EX. cbn [bind] in EX. injection EX as -> -> EV.
  destruct (print_line_ok e img HE Hs g boxes cx Eb HRb) as [P1 P2]. destruct (P2 s RL LG) as [chars EP].
  destruct (P1 s chars EP) as (_ & pics & ims & words & FB & FS & FR & FW & ->).
  exists nodes, pics, ims, words. split; [exact (load_all_dict _ _ _ _ _ _ _ _ _ EL)|]. split; [exact FB|]. split; [exact FS|]. split.
  - assert (TI : forall im, In im ims -> exists w, recognisable im /\ taught gs im w).
    { intros im I. apply (first_seen_in _ _ FS) in I. clear - FB F I. revert pics FB I. induction F as [|b w boxes ws H F IH]; intros pics FB I; inversion FB as [|? p ? ps C FB']; subst; [destruct I|].
      destruct I as [->|I]; [|exact (IH ps FB' I)]. exists w. exact (H im C). }
    clear - FR FW TI Rec TL. revert words FW. induction FR as [|im l ims st R FR IH]; intros words FW; inversion FW as [|? lw ? lws W FW']; subst; constructor.
    + destruct (TI im (or_introl eq_refl)) as (w & Ri & T). destruct (proj2 (Rec im w Ri T) l R) as [NE U].
      assert (E : lw = repeat w (List.length l)) by (eapply words_are_unique; [exact W|]; eapply uniform_words; [exact (TL im w T)|exact U]).
      destruct l as [|v l]; [congruence|]. exists w, (List.length l). split; [exact T|exact E].
    + apply IH; [intros im' I; apply TI; right; exact I|exact FW'].
  - rewrite (main_files rt nan cx disk prog args _ _ _ _ _ FA), (main_loaded rt nan cx _ _ _ _ _ nodes g infos t EL). cbv zeta. rewrite EI. cbn [attempt].
    fold e. rewrite EP. cbn [attempt]. rewrite ER. cbn [attempt]. rewrite EV, app3.
    assert (EG : vsize (gt_views g) = vsize gs).
    { unfold load_all in EL. destruct (load_optional read_dict [] dict) as [n0| | |]; try discriminate EL. cbn [bind] in EL.
      destruct (load_file (read_datas all_strategies) datas) as [cols| | |]; try discriminate EL. cbn [bind] in EL.
      destruct (load_file load_glyphs (write_glyphs gs)) as [g0| | |]; try discriminate EL. cbn [bind] in EL. destruct (negb _); [discriminate EL|].
      destruct (load_optional read_words_lines [] lines) as [ls| | |]; try discriminate EL. cbn [bind] in EL.
      destruct (words_infos (rt_lines rt) g0 ls) as [i0| | |]; try discriminate EL. cbn [bind] in EL. unfold make_table in EL.
      destruct (indexes_by_words (gt_views g0)) as [bw0| | |]; try discriminate EL. cbn [bind] in EL. injection EL as _ -> _ <-. cbn [t_glyphs] in TG.
      rewrite TG. unfold vsize, table_views. rewrite map_length. reflexivity. }
    rewrite EG. destruct boxes as [|b boxes]; [reflexivity|]. rewrite rate_ok by (rewrite ?vsize_cons; pose proof (vsize_nonneg boxes); lia). reflexivity.
Qed.

Lemma main_usage rt nan cx disk prog args : (List.length args < 3)%nat -> ocr2_main rt nan cx disk (prog :: args) = Ok ([], Exits 1).
Proof. intros H. destruct args as [|a [|b [|c args]]]; cbn in H; try lia; reflexivity. Qed.

(** * Files that are not there *)
Lemma main_missing_datas rt nan cx disk prog args glyphs image lines dict nodes : disk_files disk args glyphs None image lines dict ->
  load_optional read_dict [] dict = Ok nodes -> ocr2_main rt nan cx disk (prog :: args) = Ok (dict_line (dict_shown dict nodes), Aborts ExIo).
Proof.
  intros (fg & fd & fi & options & -> & Eg & Ed & Ei & Ol & Od) EN. unfold ocr2_main. rewrite (option_load disk read_dict [] _ _ Od), EN. cbn [attempt].
  rewrite (option_shown disk _ _ nodes Od). unfold load_disk. rewrite Ed. reflexivity.
Qed.
Lemma main_missing_glyphs rt nan cx disk prog args datas image lines dict nodes cols : disk_files disk args None (Some datas) image lines dict ->
  load_optional read_dict [] dict = Ok nodes -> load_file (read_datas all_strategies) datas = Ok cols ->
  ocr2_main rt nan cx disk (prog :: args) = Ok (dict_line (dict_shown dict nodes) ++ str " ## datas.size(): " ++ print_uint (datas_size cols) ++ [10], Aborts ExIo).
Proof.
  intros (fg & fd & fi & options & -> & Eg & Ed & Ei & Ol & Od) EN EC. unfold ocr2_main. rewrite (option_load disk read_dict [] _ _ Od), EN. cbn [attempt].
  rewrite (option_shown disk _ _ nodes Od). unfold load_disk. rewrite Ed, EC. cbn [attempt]. rewrite Eg. reflexivity.
Qed.
Lemma main_missing_image rt nan cx disk prog args glyphs datas lines dict nodes g infos t : disk_files disk args (Some glyphs) (Some datas) None lines dict ->
  load_all rt glyphs datas lines dict = Ok (nodes, g, infos, t) ->
  ocr2_main rt nan cx disk (prog :: args) = Ok (head_of (dict_shown dict nodes) (vsize (gt_views g)), Aborts ExIo).
Proof.
  intros (fg & fd & fi & options & -> & Eg & Ed & Ei & Ol & Od) EL.
  assert (E : ocr2_main rt nan cx disk (prog :: fg :: fd :: fi :: options) = main_of rt nan cx glyphs datas (Throw ExIo) lines dict).
  { unfold ocr2_main, main_of. rewrite (option_load disk read_dict [] _ _ Od), (option_load disk read_words_lines [] _ _ Ol), Ei.
    unfold load_disk. rewrite Eg, Ed. destruct (load_optional read_dict [] dict) as [nodes0| | |]; [|reflexivity..]. cbn [attempt]. rewrite (option_shown disk _ _ nodes0 Od). reflexivity. }
  rewrite E, (main_loaded _ _ _ _ _ _ _ _ _ _ _ _ EL). reflexivity.
Qed.
