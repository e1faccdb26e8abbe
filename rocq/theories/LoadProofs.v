(** A table loaded from files is as the program expects when no column is short. *)
From Verif Require Import Base BaseProofs SortModel SortProofs ImageModel StratModel ZoneModel DatasModel StreamModel StreamProofs DatasIoModel DatasIoProofs
  DictIoModel TrieModel IndexModel IndexProofs FloatModel RecogModel RecogSpec GlyphsModel ExtractModel ExtractSpec PipelineModel PipelineSpec PrintSpec.

Lemma get_unsigned_range old s : 0 <= old < 4294967296 -> 0 <= fst (get_unsigned old s) < 4294967296.
Proof.
  intros H. unfold get_unsigned, get_uint. destruct (sentry false s) as [ok s1]. destruct ok; [|exact H].
  destruct (span_int (is_rest s1)) as [[neg ds] r] eqn:E. destruct (null ds); [cbn [fst]; lia|].
  destruct (4294967296 <=? digits_value ds) eqn:L; [cbn [fst]; lia|].
  assert (D : 0 <= digits_value ds).
  { clear - E. assert (F : Forall (fun c => is_digit c = true) ds).
    { assert (G : forall l a b, span_digits l = (a, b) -> Forall (fun c => is_digit c = true) a).
      { induction l as [|c l IH]; intros a b; cbn [span_digits]; [intros [= <- _]; constructor|].
        destruct (is_digit c) eqn:Ec; [|intros [= <- _]; constructor]. destruct (span_digits l) as [a' b'] eqn:El.
        intros [= <- _]. constructor; [exact Ec|exact (IH a' b' eq_refl)]. }
      unfold span_int in E. destruct (is_rest s1) as [|c l]; [injection E as _ <- _; constructor|].
      destruct ((c =? 45) || (c =? 43)).
      - destruct (span_digits l) as [a b] eqn:El. injection E as _ <- _. exact (G _ _ _ El).
      - destruct (span_digits (c :: l)) as [a b] eqn:El. injection E as _ <- _. exact (G _ _ _ El). }
    clear E. induction ds as [|d ds IH] using rev_ind; [cbn; lia|]. rewrite digits_value_app. apply Forall_app in F as [F1 F2].
    inversion F2 as [|? ? Hd]; subst. unfold is_digit in Hd. specialize (IH F1). lia. }
  destruct neg; cbn [fst]; [apply Z.mod_pos_bound; lia|lia].
Qed.
Lemma read_cells_length {A} (R : A -> istream -> A * istream) l : forall s, List.length (fst (read_cells R l s)) = List.length l.
Proof.
  induction l as [|x l IH]; intros s; [reflexivity|]. cbn [read_cells]. destruct (R x s) as [y s1]. specialize (IH s1).
  destruct (read_cells R l s1) as [l' s2]. cbn [fst List.length] in *. rewrite IH. reflexivity.
Qed.
Lemma read_cells_all {A} (R : A -> istream -> A * istream) (P : A -> Prop) l : (forall x s, P x -> P (fst (R x s))) -> forall s, Forall P l -> Forall P (fst (read_cells R l s)).
Proof.
  intros HR. induction l as [|x l IH]; intros s F; [constructor|]. inversion F as [|? ? Hx Hl]; subst. cbn [read_cells].
  pose proof (HR x s Hx) as Hy. destruct (R x s) as [y s1]. specialize (IH s1 Hl). destruct (read_cells R l s1) as [l' s2]. constructor; assumption.
Qed.
Lemma read_fval_typed st v s : typed st v -> typed st (fst (read_fval v s)).
Proof.
  unfold typed. destruct (st_algo st) eqn:Ea; try (intros (n & -> & Hn); cbn [read_fval]; pose proof (get_unsigned_range n s Hn) as G;
    destruct (get_unsigned n s) as [m s1]; cbn [fst] in *; eauto; fail).
  - intros (l & -> & Hl). cbn [read_fval]. pose proof (read_cells_length read_alt l s) as G. destruct (read_cells read_alt l s) as [l' s1].
    cbn [fst] in *. exists l'. split; [reflexivity|congruence].
  - intros (l & -> & Hl). cbn [read_fval]. pose proof (read_cells_length get_unsigned l s) as G. destruct (read_cells get_unsigned l s) as [l' s1].
    cbn [fst] in *. exists l'. split; [reflexivity|congruence].
  - intros (l & ->). cbn [read_fval]. destruct (get_size 0 s) as [n s1]. destruct (is_ok s1); [|cbn [fst]; eauto].
    destruct (read_cells get_unsigned _ s1) as [l' s2]. cbn [fst]. eauto.
Qed.
Lemma zero_typed st : typed st (zero_of (st_algo st)).
Proof. unfold typed, zero_of. destruct (st_algo st); eexists; (split || idtac); try reflexivity; try lia. Qed.
Lemma read_columns_typed n ss : forall s, Forall2 (fun st c => Forall (typed st) c) ss (fst (read_columns n ss s)).
Proof.
  induction ss as [|st ss IH]; intros s; [constructor|]. cbn [read_columns].
  destruct (if is_ok s then read_cells read_fval (repeat (zero_of (st_algo st)) (Z.to_nat n)) s else ([], s)) as [c s1] eqn:Ec.
  specialize (IH s1). destruct (read_columns n ss s1) as [cs s2]. cbn [fst] in *. constructor; [|exact IH].
  destruct (is_ok s); [|injection Ec as <- _; constructor].
  assert (F : Forall (typed st) (fst (read_cells read_fval (repeat (zero_of (st_algo st)) (Z.to_nat n)) s))).
  { apply read_cells_all; [intros x t; apply read_fval_typed|]. apply Forall_forall. intros x Hx. apply repeat_spec in Hx as ->. apply zero_typed. }
  rewrite Ec in F. exact F.
Qed.
Lemma loaded_columns bytes cols : load_file (read_datas all_strategies) bytes = Ok cols -> Forall2 (fun st c => Forall (typed st) c) all_strategies cols.
Proof.
  unfold load_file, read_datas. destruct (fst (sentry false (open_stream bytes))); [|discriminate].
  destruct (get_size 0 (open_stream bytes)) as [n s]. cbn [bind]. pose proof (read_columns_typed n all_strategies s) as F.
  destruct (read_columns n all_strategies s) as [c s1]. cbn [fst bind] in *. destruct (is_eof s1); [|discriminate]. intros [= <-]. exact F.
Qed.
Lemma words_map_labelled gs : forall n m r, words_map gs n m = Ok r -> forall g, In g gs -> g <> [].
Proof.
  induction gs as [|g0 gs IH]; intros n m r E g Hg; [destruct Hg|]. cbn [words_map] in E. destruct g0 as [|v g0]; [discriminate|].
  destruct Hg as [<-|Hg]; [discriminate|]. exact (IH _ _ _ E g Hg).
Qed.
Lemma loaded_sound rt glyphs datas lines dict nodes g infos t : legal rt -> load_all rt glyphs datas lines dict = Ok (nodes, g, infos, t) -> full_table t -> sound_table t.
Proof.
  intros HL E (HS & HC). revert E. unfold load_all. destruct (load_optional read_dict [] dict) as [nd| | |]; try discriminate. cbn [bind].
  destruct (load_file (read_datas all_strategies) datas) as [cols| | |] eqn:ED; try discriminate. cbn [bind].
  destruct (load_file load_glyphs glyphs) as [g0| | |]; try discriminate. cbn [bind]. destruct (negb _); [discriminate|].
  destruct (load_optional read_words_lines [] lines) as [ls| | |]; try discriminate. cbn [bind].
  destruct (words_infos (rt_lines rt) g0 ls) as [inf| | |]; try discriminate. cbn [bind].
  unfold make_table. destruct (indexes_by_words (gt_views g0)) as [bw| | |] eqn:EB; try discriminate. cbn [bind].
  intros E. inversion E as [[E1 E2 E3 E4]]. clear E E1 E3. subst g0 t. apply loaded_columns in ED. cbn [t_glyphs t_cols] in HS, HC.
  destruct HL as (L1 & L2 & _). constructor; cbn [t_strategies t_cols t_first t_by_words t_glyphs t_ids]; try reflexivity; try assumption.
  - symmetry. exact (F2_length _ _ _ ED).
  - intros s c Hc. split; [apply (HC c), (in_combine_r _ _ _ _ Hc)|]. assert (F : Forall (typed s) c); [|rewrite Forall_forall in F; exact F].
    clear - ED Hc. induction ED as [|a b l l' Hab F IH]; [destruct Hc|]. destruct Hc as [[= <- <-]|Hc]; [exact Hab|exact (IH Hc)].
  - eexists. split; [apply L1|reflexivity].
  - unfold indexes_by_words in EB. destruct (words_map (gt_views g) 0 []) as [m| | |] eqn:EW; try discriminate. exact (words_map_labelled _ _ _ _ EW).
  - eexists. split; [apply L2|reflexivity].
Qed.
Lemma loaded_recogniser rt glyphs datas lines dict nodes g infos t : legal rt -> load_all rt glyphs datas lines dict = Ok (nodes, g, infos, t) -> full_table t ->
  sound_recogniser (rt_rec rt t).
Proof.
  intros HL E F. pose proof (loaded_sound rt glyphs datas lines dict nodes g infos t HL E F) as T. destruct HL as (_ & _ & _ & A & B & C).
  split; [exact T|]. split; [apply A|]. split; [exact B|exact C].
Qed.
