(** Proofs about what ocr2_extract_text prints. *)
From Verif Require Import Base BaseProofs SortModel ImageModel ImageSpec ImageProofs BoxModel BoxSpec BoxProofs StratModel ZoneModel DatasModel StreamModel TrieModel TrieProofs
  IndexModel FloatModel RecogModel RecogSpec GlyphsModel FilterSpec ExtractModel ExtractSpec ExtractProofs ShowModel ShowSpec ShowProofs PrintModel PrintSpec.

(** * The loop without what it prints *)
Lemma print_step_forget g e img s out b s' out' : print_step g e img s out b = Ok (s', out') -> char_step e img s b = Ok s'.
Proof.
  unfold print_step, char_step. destruct (section _ _ _ _ _) as [im| | |]; try discriminate. cbn [bind].
  destruct (cache_find _ _) as [[r|]| | |]; try discriminate; cbn [bind]; [congruence|].
  destruct (show_image im) as [t| | |]; try discriminate. cbn [bind].
  destruct (recognise_img _ _ _ _) as [[l cx]| | |]; try discriminate. cbn [bind].
  destruct (clone im) as [k| | |]; try discriminate. cbn [bind].
  destruct (cache_emplace _ _ _) as [c| | |]; try discriminate. cbn [bind].
  destruct (map_res _ _) as [ws| | |]; try discriminate. cbn [bind]. intros [= <- _]. reflexivity.
Qed.

Definition print_body (g : glyphs_table) (e : recogniser) (img : image) : lstate * list Z -> res (lstate * list Z + lstate * list Z) :=
  fun '(s, out) =>
       cbox <- make_box_character img (l_x s) 0 (iw img) (ih img) ;;
       if box_bool cbox then so <- print_step g e img s out cbox ;; Ok (inl so) else Ok (inr (s, out)).
Definition read_body (e : recogniser) (img : image) : lstate -> res (lstate + lstate) :=
  fun s => cbox <- make_box_character img (l_x s) 0 (iw img) (ih img) ;;
       if box_bool cbox then s' <- char_step e img s cbox ;; Ok (inl s') else Ok (inr s).
Lemma print_forget g e img : forall fuel s out s' out', loop fuel (print_body g e img) (s, out) = Ok (s', out') ->
  loop fuel (read_body e img) s = Ok s'.
Proof.
  induction fuel as [|f IH]; intros s out s' out'; [discriminate|]. cbn [loop]. unfold print_body at 1, read_body at 1.
  destruct (make_box_character _ _ _ _ _) as [b| | |]; try discriminate. cbn [bind]. destruct (box_bool b).
  - destruct (print_step g e img s out b) as [[s1 o1]| | |] eqn:E; try discriminate. cbn [bind]. rewrite (print_step_forget _ _ _ _ _ _ _ _ E). cbn [bind]. apply IH.
  - intros [= <- _]. reflexivity.
Qed.
Lemma print_line_forget g e img cx s out : print_line g e img cx = Ok (s, out) -> read_line e img cx = Ok s.
Proof. apply print_forget. Qed.

(** * What is printed *)
Lemma first_seen_in l out : first_seen l out -> forall im, In im l <-> In im out.
Proof.
  induction 1 as [|l out im H IH I|l out im H IH I]; intros im'; [reflexivity|..]; rewrite !in_app_iff, IH; [|reflexivity].
  split; [|tauto]. intros [K|[<-|[]]]; [exact K|]. now apply IH.
Qed.
Lemma map_res_words g l ws : map_res (fun v => word_text g (ov_word v)) l = Ok ws <-> words_are g l ws.
Proof.
  unfold words_are. revert ws. induction l as [|v l IH]; intros ws; cbn [map_res].
  - split; [intros [= <-]; constructor|intros H; inversion H; reflexivity].
  - destruct (word_text g (ov_word v)) as [w| | |] eqn:E; cbn [bind]; try (split; [discriminate|intros H; inversion H; congruence]).
    destruct (map_res _ l) as [ws'| | |]; cbn [bind].
    + split; [intros [= <-]; constructor; [exact E|apply IH; reflexivity]|]. intros H. inversion H as [|? w1 ? ws1 A B]; subst. apply IH in B. congruence.
    + split; [discriminate|]. intros H. inversion H as [|? w1 ? ws1 A B]; subst. apply IH in B. discriminate.
    + split; [discriminate|]. intros H. inversion H as [|? w1 ? ws1 A B]; subst. apply IH in B. discriminate.
    + split; [discriminate|]. intros H. inversion H as [|? w1 ? ws1 A B]; subst. apply IH in B. discriminate.
Qed.

Lemma F2_length {A B} (R : A -> B -> Prop) l l' : Forall2 R l l' -> List.length l = List.length l'.
Proof. induction 1; cbn; congruence. Qed.

Section Print.
Context (e : recogniser) (img : image) (HE : sound_recogniser e) (Hs : box_searchable img) (g : glyphs_table).

Definition good_print (s : lstate) (out : list Z) : Prop :=
  good_state e img s /\ exists pics ims wss, (forall im, In im ims <-> exists r, In (im, r) (l_cache s)) /\
    Forall2 (char_image img) (l_boxes s) pics /\ first_seen pics ims /\ Forall2 (recognised e) ims (l_store s) /\
    Forall2 (words_are g) (l_store s) wss /\ out = pictures ims wss.

Lemma readable_words l : (forall v, In v l -> exists w, word_text g (ov_word v) = Ok w) -> exists ws, words_are g l ws.
Proof.
  induction l as [|v l IH]; intros H; [exists []; constructor|]. destruct (H v (or_introl eq_refl)) as [w E].
  destruct IH as [ws F]; [intros v' I; apply H; right; exact I|]. exists (w :: ws). constructor; assumption.
Qed.
Lemma pictures_snoc ims wss im ws : List.length ims = List.length wss -> pictures (ims ++ [im]) (wss ++ [ws]) = pictures ims wss ++ picture_text im ws.
Proof.
  unfold pictures. revert wss. induction ims as [|i ims IH]; intros [|w wss] H; cbn in H; try lia; cbn [app combine flat_map].
  - rewrite app_nil_r. reflexivity.
  - rewrite IH by lia. rewrite app_assoc. reflexivity.
Qed.

Lemma print_step_ok s out b x s' : good_print s out -> tight_box img x b -> 0 <= x -> small_character img b ->
  char_step e img s b = Ok s' ->
  (forall out', print_step g e img s out b = Ok (s', out') -> good_print s' out') /\
  (legible e img g b -> exists out', print_step g e img s out b = Ok (s', out')).
Proof.
  intros (G & pics & ims & wss & IC & FB & FS & FR & FW & ->) T Hx SM EC.
  destruct (char_step_ok e img HE Hs s b x G T Hx) as [_ C2]. destruct (C2 s' SM EC) as (G' & _). clear C2.
  destruct (char_section img Hs x b T Hx) as (im & Es & Ci). pose proof G as (GC & GK & _).
  pose proof Ci as (Wi & _). pose proof (SM im Ci) as R.
  assert (SI : show_image im = Ok (framed im)).
  { apply show_image_ok; [exact Wi|]. unfold recognisable in R. destruct R as (_ & R1 & R2 & _ & R4). nia. }
  unfold print_step. unfold char_step in EC. rewrite Es in EC |- *. cbn [bind] in EC |- *.
  destruct (cache_find_spec im Wi (l_cache s) GC) as (o & Eo & Ho). rewrite Eo in EC |- *. cbn [bind] in EC |- *. destruct o as [r|].
  - injection EC as <-. split; [|intros _; eexists; reflexivity]. intros out' [= <-]. split; [exact G'|].
    exists (pics ++ [im]), ims, wss. cbn [l_cache l_boxes l_store]. split; [exact IC|]. split; [apply Forall2_snoc; assumption|]. split; [|auto].
    apply seen_again; [exact FS|]. apply (first_seen_in _ _ FS). apply IC. exists r. exact Ho.
  - rewrite SI. cbn [bind]. destruct (recognise_img _ _ _ _) as [[l cx']| | |] eqn:ER; try discriminate EC. cbn [bind] in EC |- *.
    rewrite (clone_law im Wi) in EC |- *. cbn [bind] in EC |- *.
    destruct (cache_emplace_spec im (vsize (l_store s)) Wi (l_cache s) GC Ho) as (c' & Ec & GC' & HC'). rewrite Ec in EC |- *. cbn [bind] in EC |- *.
    injection EC as <-. cbn [l_store] in *.
    assert (Rl : recognised e im l).
    { unfold recognise_img in ER. destruct (rotate90 im) as [img90| | |] eqn:Er; try discriminate ER. cbn [bind] in ER.
      eapply recognised_any; [exact R|apply HE|exact Er|exact ER]. }
    assert (NI : ~ In im ims) by (intros I; apply IC in I; destruct I as [r I]; exact (Ho (im, r) I eq_refl)).
    split.
    + intros out'. destruct (map_res _ _) as [ws| | |] eqn:EW; try discriminate. cbn [bind]. intros [= <-]. split; [exact G'|].
      apply map_res_words in EW. exists (pics ++ [im]), (ims ++ [im]), (wss ++ [ws]). cbn [l_cache l_boxes l_store].
      split; [|split; [apply Forall2_snoc; assumption|]; split; [apply seen_new; [exact FS|rewrite (first_seen_in _ _ FS); exact NI]|];
        split; [apply Forall2_snoc; assumption|]; split; [apply Forall2_snoc; assumption|]].
      * intros k. rewrite in_app_iff, IC. split.
        -- intros [[r I]|[<-|[]]]; [exists r; apply HC'; right; exact I|exists (vsize (l_store s)); apply HC'; left; reflexivity].
        -- intros [r I]. apply HC' in I. destruct I as [E|I]; [right; left; congruence|left; exists r; exact I].
      * rewrite pictures_snoc by (rewrite (F2_length _ _ _ FR); exact (F2_length _ _ _ FW)). unfold picture_text. rewrite <- !app_assoc. reflexivity.
    + intros RD. destruct (readable_words l) as [ws W].
      { intros v I. exact (RD im l v Ci Rl I). }
      apply map_res_words in W. rewrite W. eexists. reflexivity.
Qed.

Lemma print_loop : forall fuel s out rest, good_print s out -> 0 <= l_x s <= iw img -> iw img - l_x s < Z.of_nat fuel ->
  loop fuel (seg_body img) (l_x s, l_boxes s) = Ok (l_boxes s ++ rest) -> Forall (small_character img) rest ->
  (forall s' out', loop fuel (print_body g e img) (s, out) = Ok (s', out') -> good_print s' out') /\
  (forall s', loop fuel (read_body e img) s = Ok s' -> Forall (legible e img g) rest -> exists out', loop fuel (print_body g e img) (s, out) = Ok (s', out')).
Proof.
  induction fuel as [|f IH]; intros s out rest G Hx Hf Er SM; [lia|]. cbn [loop] in *. unfold print_body at 1 3, read_body at 1.
  destruct (make_box_spec img Hs (l_x s) Hx) as (b & Eb & [(Hi & H0 & H1)|Ht]); cbn [seg_body] in Er; rewrite Eb in Er |- *; cbn [bind] in Er |- *.
  - replace (box_bool b) with false in Er |- * by (unfold box_bool; rewrite H0; reflexivity).
    split; [intros s' out' [= <- <-]; exact G|]. intros s' [= <-] _. eexists. reflexivity.
  - pose proof (tight_nonempty _ _ _ Ht) as Hne. apply box_bool_iff in Hne. rewrite Hne in Er |- *.
    assert (Hb : l_x s <= bx b /\ 0 < bw b /\ bx b + bw b < iw img) by (unfold tight_box in Ht; lia).
    assert (HW2 : iw img < 2147483648) by (destruct Hs as (_ & ? & ? & ?); nia).
    rewrite u32_small in Er by lia.
    destruct (segment_loop img Hs f (bx b + bw b) (l_boxes s ++ [b])) as (r & Er' & _); [lia|lia|]. 
    change (loop f (seg_body img) (bx b + bw b, l_boxes s ++ [b]) = Ok ((l_boxes s ++ [b]) ++ r)) in Er'.
    rewrite Er' in Er. injection Er as Er. rewrite <- app_assoc in Er. apply app_inv_head in Er. subst rest. inversion SM as [|? ? S1 S2]; subst.
    assert (NX : forall s1, char_step e img s b = Ok s1 -> l_boxes s1 = l_boxes s ++ [b] /\ l_x s1 = bx b + bw b).
    { intros s1 E1. destruct (char_step_ok e img HE Hs s b (l_x s) (proj1 G) Ht ltac:(lia)) as [_ C2]. destruct (C2 s1 S1 E1) as (_ & B & X & _).
      rewrite u32_small in X by lia. auto. }
    split.
    + intros s' out'. destruct (print_step g e img s out b) as [[s1 o1]| | |] eqn:EP; try discriminate. cbn [bind]. intros EL.
      pose proof (print_step_forget _ _ _ _ _ _ _ _ EP) as EC. destruct (NX s1 EC) as [B X].
      destruct (print_step_ok s out b (l_x s) s1 G Ht ltac:(lia) S1 EC) as [P1 _].
      refine (proj1 (IH s1 o1 r (P1 o1 EP) _ _ _ S2) s' out' EL); [lia|lia|]. rewrite X, B. exact Er'.
    + intros s'. destruct (char_step e img s b) as [s1| | |] eqn:EC; try discriminate. cbn [bind]. intros EL RD.
      destruct (NX s1 eq_refl) as [B X]. inversion RD as [|? ? R1 R2]; subst.
      destruct (print_step_ok s out b (l_x s) s1 G Ht ltac:(lia) S1 EC) as [P1 P2].
      destruct (P2 R1) as [o1 EP]. rewrite EP. cbn [bind].
      refine (proj2 (IH s1 o1 r (P1 o1 EP) _ _ _ S2) s' EL R2); [lia|lia|]. rewrite X, B. exact Er'.
Qed.

Lemma print_line_ok boxes cx : segment img = Ok boxes -> Forall (small_character img) boxes ->
  (forall s out, print_line g e img cx = Ok (s, out) -> read_line e img cx = Ok s /\ printed e img g boxes (l_store s) out) /\
  (forall s, read_line e img cx = Ok s -> Forall (legible e img g) boxes -> exists out, print_line g e img cx = Ok (s, out)).
Proof.
  intros Eb SM. pose proof Hs as (_ & Hw & _).
  assert (G0 : good_print (mkls 0 [] [] [] [] [] cx) []).
  { split; [split; [split; [constructor|intros p []]|]; split; [intros k r []|]; split; [constructor|]; split; [constructor|intros k k' r []]|].
    exists [], [], []. split; [intros im; split; [intros []|intros [r []]]|]. repeat (split; [constructor|]). reflexivity. }
  destruct (print_loop (S (Z.to_nat (iw img))) (mkls 0 [] [] [] [] [] cx) [] boxes G0) as [P1 P2]; cbn [l_x l_boxes]; [lia|lia|exact Eb|exact SM|].
  split; [|exact P2]. intros s out EP. pose proof (print_line_forget _ _ _ _ _ _ EP) as ER. split; [exact ER|].
  destruct (P1 s out EP) as (_ & pics & ims & wss & _ & FB & FS & FR & FW & EO).
  destruct (read_line_ok e img HE Hs boxes cx Eb SM) as [_ RL]. destruct (RL s ER) as (B & _). rewrite B in FB.
  exists pics, ims, wss. auto.
Qed.
End Print.
