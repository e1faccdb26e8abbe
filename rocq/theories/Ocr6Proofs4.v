(** extract_text6: the line and the text. *)
From Verif Require Import Base BaseProofs SortModel ImageModel ImageSpec ImageProofs BoxModel BoxSpec BoxProofs StratModel ZoneModel DatasModel DatasSpec DatasProofs
  TrieModel DictIoModel SpellModel SpellSpec FloatModel RecogModel RecogSpec RecogProofs ExtractModel ExtractSpec ExtractProofs AssembleSpec Ocr6Model Ocr6Spec Ocr6Proofs Ocr6Proofs2 OcrProofs Ocr6Proofs3.
From Coq Require Import Sorted.

(** * What is found for a picture *)
Lemma map_res_ext {A B} (f g : A -> res B) l : (forall a, f a = g a) -> map_res f l = map_res g l.
Proof. intros H. induction l as [|a l IH]; [reflexivity|]. cbn [map_res]. now rewrite H, IH. Qed.
Lemma reduce_complex6_ext f g cols : (forall s, f s = g s) -> forall ss ps, reduce_complex6 f cols ss ps = reduce_complex6 g cols ss ps.
Proof.
  intros H. induction ss as [|s ss IH]; intros ps; [reflexivity|]. cbn [reduce_complex6]. rewrite H. destruct (get_col _ _ _); try reflexivity. cbn [bind].
  destruct (g s); try reflexivity. cbn [bind]. destruct (reduce_complex1 _ _ _ _); try reflexivity. cbn [bind]. apply IH.
Qed.
Lemma decide6_ext rt cols words by_word f g ps : (forall s, f s = g s) -> decide6 rt cols words by_word f ps = decide6 rt cols words by_word g ps.
Proof.
  intros H. unfold decide6. cbv zeta. destruct (rank6 _ _ _) as [tmp| | |]; try reflexivity. cbn [bind]. destruct tmp as [|p tmp]; [reflexivity|]. destruct (first_word6 _ _); try reflexivity. cbn [bind].
  destruct (dle _ _); [reflexivity|]. rewrite (reduce_complex6_ext f g _ H). destruct (reduce_complex6 g _ _ _) as [qs| | |]; try reflexivity. cbn [bind].
  unfold reduce_exclusive6. destruct qs; [reflexivity|]. now rewrite (map_res_ext f g exclusive_strategies H).
Qed.
Lemma recognise6_any e n n' im : recognisable im -> recognise6 e n im = recognise6 e n' im.
Proof.
  intros R. unfold recognise6. destruct (rotate90 im) as [im90| | |] eqn:E; try reflexivity. cbn [bind]. cbv zeta.
  set (f := load6 (r6_junk (e6_rt e) n) (r6_zones (e6_rt e)) im im90). set (g := load6 (r6_junk (e6_rt e) n') (r6_zones (e6_rt e)) im im90).
  assert (H : forall s, f s = g s) by (intros s; unfold f, g; rewrite !load6_alone by assumption; reflexivity). clearbody f g.
  rewrite (map_res_ext f g algos6 H). destruct (map_res g algos6); try reflexivity. cbn [bind]. destruct (candidates6 _ _ _ _) as [ps| | |]; try reflexivity. cbn [bind].
  now apply decide6_ext.
Qed.
(** The form of what is found. *)
Definition shape6 (f : found6) : Prop :=
  f6_first f = f6_r1 f /\ (exists l, f6_words f = f6_r2 f :: l) /\ (f6_amb f = f6_words f \/ (f6_amb f = [] /\ f6_words f = [unknown])).
Lemma head_word_list words ks w : head_word words ks w -> exists l, flat_map (labels6 words) ks = w :: l.
Proof. intros (k & ks' & l & -> & E). cbn [flat_map]. rewrite E. eexists. reflexivity. Qed.
Lemma decision6_shape zsort img cols words ps f : decision6 zsort img cols words ps f -> shape6 f.
Proof.
  pose proof (head_word_list words) as HW.
  intros [(_ & ->)|[(ks & w & _ & H & ->)|(_ & p & w & l & _ & _ & _ & [(_ & ->)|(ks & w2 & _ & H & ->)])]]; unfold shape6; cbn [f6_first f6_r1 f6_r2 f6_amb f6_words]; (split; [reflexivity|]); split; eauto.
Qed.
Lemma outcome6_shape zsort img cols words f : outcome6 zsort img cols words f -> shape6 f.
Proof.
  pose proof (head_word_list words) as HW. intros (value & _ & D). cbv zeta in D.
  destruct D as [(_ & ->)|[(ks & w & _ & H & ->)|(_ & k & w & l & _ & _ & [(_ & ->)|(ks & w2 & _ & H & ->)])]]; unfold shape6; cbn [f6_first f6_r1 f6_r2 f6_amb f6_words]; (split; [reflexivity|]); split; eauto.
Qed.
(** A recognition that does not depend on when it is made. *)
Record steady (rec : Z -> image -> res found6) : Prop := {
  steady_any : forall n n' im, recognisable im -> rec n im = rec n' im;
  steady_shape : forall n im f, recognisable im -> rec n im = Ok f -> shape6 f }.
Lemma recognise6_steady e : sound_env6 e -> steady (recognise6 e).
Proof.
  intros HE. split; [intros; now apply recognise6_any|]. intros n im f HR Hf. destruct (recognise6_exact e n im HE HR) as (O & _). exact (outcome6_shape _ _ _ _ _ (O f Hf)).
Qed.
Lemma recognised6_of rec n im f : steady rec -> recognisable im -> rec n im = Ok f -> recognised6 rec im f.
Proof. intros HA R E n'. now rewrite (steady_any _ HA n' n im R). Qed.

Lemma found6_shape e im f : sound_env6 e -> recognisable im -> recognised6 (recognise6 e) im f ->
  f6_first f = f6_r1 f /\ (exists l, f6_words f = f6_r2 f :: l) /\ (f6_amb f = f6_words f \/ (f6_amb f = [] /\ f6_words f = [unknown])).
Proof. intros HE HR Hf. exact (steady_shape _ (recognise6_steady e HE) 0 im f HR (Hf 0)). Qed.

(** * The characters of a line *)
Lemma rd_inv6 {A} (l : list A) i a : rd l i = Ok a -> 0 <= i /\ nth_error l (Z.to_nat i) = Some a.
Proof. unfold rd. destruct (Z.ltb_spec i 0); [discriminate|]. destruct (nth_error l (Z.to_nat i)); [|discriminate]. intros [= ->]. auto. Qed.
Inductive scan (img : image) : Z -> list box -> Prop :=
| scan_end x b : make_box_character img x 0 (iw img) (ih img) = Ok b -> box_bool b = false -> scan img x []
| scan_next x b rest : make_box_character img x 0 (iw img) (ih img) = Ok b -> box_bool b = true -> tight_box img x b -> 0 <= x -> x <= bx b -> 0 < bw b -> bx b + bw b < iw img ->
    scan img (bx b + bw b) rest -> scan img x (b :: rest).
Lemma scan_loop img : box_searchable img -> forall fuel x bs, 0 <= x <= iw img -> iw img - x < Z.of_nat fuel ->
  exists rest, loop fuel (seg_body img) (x, bs) = Ok (bs ++ rest) /\ scan img x rest.
Proof.
  intros Hs. induction fuel as [|fuel IH]; intros x bs Hx Hf; [lia|]. cbn [loop seg_body].
  destruct (make_box_spec img Hs x Hx) as (b & Eb & [(Hi & H0 & H1)|Ht]); rewrite Eb; cbn [bind].
  - assert (B0 : box_bool b = false) by (unfold box_bool; rewrite H0; reflexivity). rewrite B0. exists []. rewrite app_nil_r. split; [reflexivity|]. econstructor; eassumption.
  - pose proof (tight_nonempty _ _ _ Ht) as Hne. apply box_bool_iff in Hne. rewrite Hne. pose proof (bs_facts img Hs) as (HW & _).
    assert (Hb : x <= bx b /\ 0 < bw b /\ bx b + bw b < iw img) by (unfold tight_box in Ht; lia).
    assert (HW2 : iw img < 2147483648) by (destruct Hs as (_ & ? & ? & ?); nia). rewrite u32_small by lia.
    destruct (IH (bx b + bw b) (bs ++ [b]) ltac:(lia) ltac:(lia)) as (rest & Er & Sr). exists (b :: rest). split; [rewrite Er, <- app_assoc; reflexivity|].
    apply scan_next; try assumption; lia.
Qed.
Lemma scan_segment img boxes : box_searchable img -> segment img = Ok boxes -> scan img 0 boxes.
Proof.
  intros Hs E. pose proof Hs as (_ & Hw & _). destruct (scan_loop img Hs (S (Z.to_nat (iw img))) 0 [] ltac:(lia) ltac:(lia)) as (rest & Er & Sr).
  change (loop (S (Z.to_nat (iw img))) (seg_body img) (0, [])) with (segment img) in Er. rewrite E in Er. injection Er as ->. exact Sr.
Qed.

Section Line.
Context (rec : Z -> image -> res found6) (HA : steady rec) (img : image) (Hs : box_searchable img).
Definition good6 (before : list image) (s : state6) : Prop :=
  good_cache (q_cache s) /\
  (forall k r, In (k, r) (q_cache s) -> exists f, recognised6 rec k f /\ recognisable k /\ rd (q_store s) r = Ok (f6_first f, f6_words f)) /\
  forall k, In k before <-> exists r, In (k, r) (q_cache s).
Definition step_state (s : state6) (x : Z) (b : box) (f : found6) (l : list (list Z)) (s' : state6) : Prop :=
  q_x s' = bx b + bw b /\ q_r1 s' = q_r1 s ++ f6_r1 f ++ [32] /\ q_r2 s' = q_r2 s ++ f6_r2 f ++ [32] /\
  q_amb s' = q_amb s ++ (if x + 4 <? bx b then [[str " "]] else []) ++ [l].
Lemma step6_ok s before x b : good6 before s -> q_x s = x -> x + 4 < 4294967296 -> tight_box img x b -> 0 <= x -> 0 < bw b -> bx b + bw b < iw img -> iw img < 2147483648 ->
  (forall im, char_image img b im -> recognisable im) ->
  (can_read6 rec img b -> exists s', step6 rec img s b = Ok s') /\
  (forall s', step6 rec img s b = Ok s' -> exists im f l, char_image img b im /\ recognised6 rec im f /\
     (In im before /\ l = f6_words f \/ ~ In im before /\ l = f6_amb f) /\ step_state s x b f l s' /\ good6 (im :: before) s').
Proof.
  intros (GC & GK & GB) <- Hx4 T Hx Hw Hb HW HR. destruct (char_section img Hs (q_x s) b T Hx) as (im & Es & Ci). unfold step6. rewrite Es. cbn [bind].
  pose proof Ci as (Wi & _). destruct (cache_find_spec im Wi (q_cache s) GC) as (o & -> & Ho). cbn [bind]. cbv zeta.
  assert (Ub : 0 <= bx b) by (unfold tight_box in T; lia). rewrite (u32_small (q_x s + 4)), (u32_small (bx b + bw b)) by lia. destruct o as [r|].
  - destruct (GK im r Ho) as (f & Rf & Ri & Er). rewrite Er. cbn [bind]. destruct (steady_shape _ HA 0 im f Ri (Rf 0)) as (F1 & (l & F2) & _). rewrite F2.
    change (rd (f6_r2 f :: l) 0) with (Ok (f6_r2 f)). cbn [bind]. split; [intros _; eexists; reflexivity|]. intros s' [= <-]. exists im, f, (f6_words f).
    split; [exact Ci|]. split; [exact Rf|]. split; [left; split; [apply GB; eauto|reflexivity]|]. split.
    + split; [reflexivity|]. cbn [q_r1 q_r2 q_amb]. rewrite F1, <- F2. split; [reflexivity|]. split; [reflexivity|]. destruct (_ <? _); [now rewrite <- app_assoc|reflexivity].
    + split; [exact GC|]. split; [exact GK|]. cbn [q_cache]. intros k. cbn [In]. rewrite (GB k). split; [intros [<-|H]; eauto|auto].
  - destruct (cache_emplace_spec im (vsize (q_store s)) Wi (q_cache s) GC Ho) as (c' & Ec & GC' & HC').
    assert (Ri : recognisable im) by (apply HR; exact Ci). split.
    + intros CR. destruct (CR im Ci) as (f & Rf). rewrite (Rf (vsize (q_store s))). cbn [bind]. rewrite Ec. eexists. reflexivity.
    + intros s'. destruct (rec (vsize (q_store s)) im) as [f| | |] eqn:Ef; cbn [bind]; try discriminate. rewrite Ec. cbn [bind]. intros [= <-].
      assert (Rf : recognised6 rec im f) by (exact (recognised6_of _ _ _ _ HA Ri Ef)). exists im, f, (f6_amb f).
      split; [exact Ci|]. split; [exact Rf|]. split; [right; split; [intros Hi; apply GB in Hi; destruct Hi as (r & Hr); exact (Ho _ Hr eq_refl)|reflexivity]|]. split.
      * split; [reflexivity|]. cbn [q_r1 q_r2 q_amb]. split; [reflexivity|]. split; [reflexivity|]. destruct (_ <? _); [now rewrite <- app_assoc|reflexivity].
      * split; [exact GC'|]. split; cbn [q_cache q_store].
        -- intros k r Hk. apply HC' in Hk. destruct Hk as [[= -> ->]|Hk].
           ++ exists f. split; [exact Rf|]. split; [exact Ri|]. rewrite rd_ok with (a := (f6_first f, f6_words f)); [reflexivity|unfold vsize; lia|]. unfold vsize. rewrite Nat2Z.id, nth_error_app2, Nat.sub_diag by lia. reflexivity.
           ++ destruct (GK k r Hk) as (g & Rg & Rk & Er). exists g. split; [exact Rg|]. split; [exact Rk|]. destruct (rd_inv6 _ _ _ Er) as (Hr & Hn).
              rewrite rd_ok with (a := (f6_first g, f6_words g)); [reflexivity|lia|]. rewrite nth_error_app1 by (apply nth_error_Some; congruence). exact Hn.
        -- intros k. cbn [In]. rewrite (GB k). split.
           ++ intros [<-|(r & Hr)]; [exists (vsize (q_store s)); apply HC'; now left|exists r; apply HC'; now right].
           ++ intros (r & Hr). apply HC' in Hr. destruct Hr as [[= -> _]|Hr]; [now left|right; eauto].
Qed.

Definition body6 (s : state6) : res (state6 + state6) :=
  cbox <- make_box_character img (q_x s) 0 (iw img) (ih img) ;;
  if box_bool cbox then s' <- step6 rec img s cbox ;; Ok (inl s') else Ok (inr s).
Lemma line_loop x boxes : scan img x boxes -> forall fuel before s, good6 before s -> q_x s = x -> 0 <= x -> iw img - x < Z.of_nat fuel -> x <= iw img -> iw img < 2147483648 ->
  Forall (small_character img) boxes ->
  (Forall (can_read6 rec img) boxes -> exists s', loop fuel body6 s = Ok s') /\
  (forall s', loop fuel body6 s = Ok s' -> exists fs amb, line6 rec img x before boxes fs amb /\ q_amb s' = q_amb s ++ amb /\
     q_r1 s' = q_r1 s ++ spaced f6_r1 fs /\ q_r2 s' = q_r2 s ++ spaced f6_r2 fs).
Proof.
  intros Sc. induction Sc as [x b Eb B0|x b rest Eb B1 T H0 H1 H2 H3 Sc IH]; intros fuel before s G <- Hx Hf Hxw HW Sm; (destruct fuel as [|fuel]; [lia|]); cbn [loop]; unfold body6 at 1 3; rewrite Eb; cbn [bind].
  - rewrite B0. split; [intros _; eexists; reflexivity|]. intros s' [= <-]. exists [], []. split; [constructor|]. cbn [spaced flat_map]. rewrite !app_nil_r. auto.
  - rewrite B1. inversion Sm as [|? ? S1 S2]; subst. destruct (step6_ok s before (q_x s) b G eq_refl ltac:(lia) T Hx H2 H3 HW S1) as (C1 & C2). split.
    + intros CR. inversion CR as [|? ? R1 R2]; subst. destruct (C1 R1) as (s1 & E1). rewrite E1. cbn [bind]. destruct (C2 s1 E1) as (im & f & l & _ & _ & _ & (X1 & _) & G1).
      exact (proj1 (IH fuel (im :: before) s1 G1 X1 ltac:(lia) ltac:(lia) ltac:(lia) HW S2) R2).
    + intros s'. destruct (step6 rec img s b) as [s1| | |] eqn:E1; cbn [bind]; try discriminate. intros E'. destruct (C2 s1 eq_refl) as (im & f & l & Ci & Rf & Hl & (X1 & A1 & A2 & A3) & G1).
      destruct (proj2 (IH fuel (im :: before) s1 G1 X1 ltac:(lia) ltac:(lia) ltac:(lia) HW S2) s' E') as (fs & amb & L & B2 & B3 & B4).
      exists (f :: fs), ((if q_x s + 4 <? bx b then [[str " "]] else []) ++ l :: amb). split; [econstructor; eassumption|]. rewrite B2, A3, B3, A1, B4, A2.
      cbn [spaced flat_map]. change (str " ") with [32]. rewrite <- !app_assoc. cbn [app]. auto.
Qed.
Theorem read_line6_ok boxes : segment img = Ok boxes -> Forall (small_character img) boxes ->
  (Forall (can_read6 rec img) boxes -> exists s, read_line6 rec img = Ok s) /\
  (forall s, read_line6 rec img = Ok s -> exists fs, line6 rec img 0 [] boxes fs (q_amb s) /\ q_r1 s = spaced f6_r1 fs /\ q_r2 s = spaced f6_r2 fs).
Proof.
  intros E Sm. pose proof (scan_segment img boxes Hs E) as Sc. pose proof Hs as (_ & Hw & _).
  assert (HW2 : iw img < 2147483648) by (destruct Hs as (_ & ? & ? & ?); nia).
  assert (G0 : good6 [] (mkst6 0 [] [] [] [] [])).
  { split; [split; [constructor|intros p []]|]. split; [intros k r []|]. intros k. split; [intros []|intros (r & [])]. }
  destruct (line_loop 0 boxes Sc (S (Z.to_nat (iw img))) [] _ G0 eq_refl ltac:(lia) ltac:(lia) ltac:(lia) HW2 Sm) as (L1 & L2). split; [exact L1|].
  intros s Es. destruct (L2 s Es) as (fs & amb & L & A & B & C). cbn [q_amb q_r1 q_r2 app] in *. exists fs. subst amb. auto.
Qed.
End Line.
Theorem read_line6_reads e : sound_env6 e -> forall img, box_searchable img -> forall boxes, segment img = Ok boxes -> Forall (small_character img) boxes ->
  (Forall (can_read6 (recognise6 e) img) boxes -> exists s, read_line6 (recognise6 e) img = Ok s) /\
  (forall s, read_line6 (recognise6 e) img = Ok s -> exists fs, line6 (recognise6 e) img 0 [] boxes fs (q_amb s) /\ q_r1 s = spaced f6_r1 fs /\ q_r2 s = spaced f6_r2 fs).
Proof. intros HE img Hs. exact (read_line6_ok _ (recognise6_steady e HE) img Hs). Qed.

(** * The text *)
Lemma mark_sep c : separator6 c = mark6 c.
Proof. destruct c as [|w c]; [reflexivity|]. destruct w as [|m [|]]; reflexivity. Qed.
Lemma split_at_spec {A} (p : A -> bool) l : forall a b, split_at p l = (a, b) -> l = a ++ b /\ (forall x, In x a -> p x = false) /\ (match b with [] => True | y :: _ => p y = true end).
Proof.
  induction l as [|x l IH]; intros a b; cbn [split_at]; [intros [= <- <-]; repeat split; intros ? []|]. destruct (p x) eqn:P.
  - intros [= <- <-]. repeat split; [intros ? []|exact P].
  - destruct (split_at p l) as (u, v). intros [= <- <-]. destruct (IH u v eq_refl) as (-> & H1 & H2). repeat split; [|exact H2]. intros y [<-|Hy]; [exact P|now apply H1].
Qed.
Lemma append_fronts_ok l : forall out, append_fronts l out = out ++ flat_map front l.
Proof. induction l as [|[|w c] l IH]; intros out; cbn [append_fronts flat_map front app]; rewrite ?IH, ?app_nil_r, <- ?app_assoc; reflexivity. Qed.
Lemma append_separators_ok l : forall out, append_separators l out = out ++ flat_map shown l.
Proof. induction l as [|[|w c] l IH]; intros out; cbn [append_separators flat_map shown]; rewrite ?IH, ?app_nil_r, <- ?app_assoc; reflexivity. Qed.
Section Text.
Context (dict : list fnode) (spell : list (list (list Z)) -> option (list Z)).
Lemma render_word a : forall word b, (forall x, In x a -> mark6 x = false) -> render6 spell word (a ++ b) = render6 spell (word ++ a) b.
Proof.
  induction a as [|x a IH]; intros word b H; [now rewrite app_nil_r|]. cbn [app render6]. rewrite (H x (or_introl eq_refl)), IH by (intros; apply H; now right). now rewrite <- app_assoc.
Qed.
Lemma render_seps a : forall b, (forall x, In x a -> mark6 x = true) -> render6 spell [] (a ++ b) = flat_map shown a ++ render6 spell [] b.
Proof.
  induction a as [|x a IH]; intros b H; [reflexivity|]. cbn [app render6 flat_map]. rewrite (H x (or_introl eq_refl)), IH by (intros; apply H; now right).
  change (flush spell []) with (@nil Z). now rewrite <- app_assoc.
Qed.
Lemma render_flush word b : (match b with [] => True | y :: _ => mark6 y = true end) -> render6 spell word b = flush spell word ++ render6 spell [] b.
Proof. destruct b as [|y b]; intros H; cbn [render6]; [now rewrite app_nil_r|]. rewrite H. reflexivity. Qed.
Lemma without_leading_split l : without_leading l = snd (split_at (fun c => negb (separator6 c)) l).
Proof.
  induction l as [|c l IH]; [reflexivity|]. cbn [without_leading split_at]. pose proof (mark_sep c) as M. destruct (mark6 c); rewrite M; cbn [negb]; [|reflexivity]. rewrite IH.
  destruct (split_at _ l). reflexivity.
Qed.
Definition abody (p : list (list (list Z)) * list Z) : res (list (list (list Z)) * list Z + list Z) :=
  let '(l, out) := p in
  match l with
  | [] => Ok (inr out)
  | _ :: _ =>
    let '(word, rest) := split_at separator6 l in
    '(b, out) <- disambiguous dict word out ;;
    let out := if b : bool then out else append_fronts word out in
    let '(seps, rest) := split_at (fun e => negb (separator6 e)) rest in
    Ok (inl (rest, append_separators seps out))
  end.
Lemma assemble_loop : forall fuel l out, (List.length l < fuel)%nat -> (match l with [] => True | c :: _ => mark6 c = false end) ->
  (forall ps out, ps <> [] -> incl ps l -> disambiguous dict ps out = Ok (verdict out (spell ps))) ->
  loop fuel abody (l, out) = Ok (out ++ render6 spell [] l).
Proof.
  induction fuel as [|fuel IH]; intros l out Hf Hh HD; [lia|]. cbn [loop]. unfold abody at 1. destruct l as [|c l']; [cbn; now rewrite app_nil_r|].
  set (l := c :: l') in *. destruct (split_at separator6 l) as (word, rest) eqn:E1. destruct (split_at_spec _ _ _ _ E1) as (L1 & W1 & R1).
  destruct (split_at (fun e => negb (separator6 e)) rest) as (seps, rest2) eqn:E2. destruct (split_at_spec _ _ _ _ E2) as (L2 & W2 & R2).
  assert (Nw : word <> []).
  { intros ->. cbn [app] in L1. rewrite <- L1 in R1. unfold l in R1. rewrite mark_sep in R1. congruence. }
  rewrite (HD word out Nw) by (intros x Hx; rewrite L1; apply in_or_app; now left).
  assert (EO : forall k : bool * list Z -> res (list (list (list Z)) * list Z + list Z), (x <- Ok (verdict out (spell word)) ;; k x) = k (verdict out (spell word))) by reflexivity.
  assert (Fl : (let '(b, o) := verdict out (spell word) in if b : bool then o else append_fronts word o) = out ++ flush spell word).
  { unfold flush. destruct word; [congruence|]. destruct (spell _); cbn [verdict]; [reflexivity|]. apply append_fronts_ok. }
  rewrite EO. destruct (verdict out (spell word)) as (b, o). cbn beta iota in Fl |- *. rewrite Fl, append_separators_ok. rewrite IH.
  - f_equal. rewrite <- !app_assoc. f_equal. rewrite L1, render_word by (intros x Hx; rewrite <- mark_sep; now apply W1). cbn [app].
    rewrite (render_flush word rest) by (destruct rest; [exact I|]; rewrite <- mark_sep; exact R1). f_equal. rewrite L2, render_seps; [reflexivity|].
    intros x Hx. rewrite <- mark_sep. specialize (W2 x Hx). destruct (separator6 x); [reflexivity|discriminate].
  - assert (List.length l = (List.length word + (List.length seps + List.length rest2))%nat) by (rewrite L1, L2, !app_length; reflexivity).
    destruct word; [congruence|]. cbn [List.length] in *. lia.
  - destruct rest2 as [|y r]; [exact I|]. rewrite <- mark_sep. destruct (separator6 y); [discriminate|reflexivity].
  - intros ps o' Np Ip. apply HD; [exact Np|]. intros x Hx. rewrite L1, L2. apply in_or_app. right. apply in_or_app. right. now apply Ip.
Qed.
Lemma assemble6_exact line : (forall ps out, ps <> [] -> incl ps line -> disambiguous dict ps out = Ok (verdict out (spell ps))) ->
  assemble6 dict line = Ok (text6 spell line).
Proof.
  intros HD. unfold assemble6, text6. rewrite without_leading_split. destruct (split_at (fun c => negb (separator6 c)) line) as (a, b) eqn:E. destruct (split_at_spec _ _ _ _ E) as (L & _ & R). cbn [snd].
  change (loop (S (List.length line)) abody (b, []) = Ok (render6 spell [] b)). rewrite assemble_loop; [reflexivity|rewrite L, app_length; lia| |].
  - destruct b as [|c b]; [exact I|]. rewrite <- mark_sep. destruct (separator6 c); [discriminate|reflexivity].
  - intros ps out N Ip. apply HD; [exact N|]. intros x Hx. rewrite L. apply in_or_app. right. now apply Ip.
Qed.
End Text.
