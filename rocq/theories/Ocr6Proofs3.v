(** extract_text6: the recognition of a character. *)
From Verif Require Import Base BaseProofs SortModel ImageModel ImageSpec StratModel StratSpec StratFeatures3 ZoneModel ZoneProofs3 DatasModel DatasSpec DatasProofs TrieModel
  UtilModel IndexModel FloatModel FloatSpec FloatProofs FloatProofs2 RecogModel RecogSpec RecogProofs RecogProofs2 Ocr6Model Ocr6Spec Ocr6Proofs Ocr6Proofs2 OcrProofs.
From Coq Require Import Sorted SpecFloat Permutation.

Lemma sound_base e : sound_env6 e -> base6 (e6_rt e) (e6_cols e) (e6_words e) (e6_by_word e).
Proof.
  intros HE. pose proof (se_table e HE) as T. split; try apply HE; try apply T. pose proof (t6_size _ _ T). lia.
Qed.
Lemma enumerates_ext words k k' ks : (forall i, k i <-> k' i) -> enumerates words k ks -> enumerates words k' ks.
Proof. intros H E. split; [intros i Hi; apply H; now apply E|apply E|intros i Hi; apply E; now apply H]. Qed.
Lemma share_0 c : 0 <= c <= 100 -> share d0 c 100 = d0.
Proof.
  intros H. assert (U : upto 0 40 (share d0 c 100)) by (apply share_upto; [lia|lia|lia|now left]).
  destruct U as [E|(m & e & _ & _ & _ & C)]; [exact E|]. cbn in C. lia.
Qed.

Lemma recognise6_outcome e n img img90 : sound_env6 e -> recognisable img -> rotate90 img = Ok img90 ->
  (forall f, recognise6 e n img = Ok f -> outcome6 (r6_zones (e6_rt e)) img (e6_cols e) (e6_words e) f) /\
  (comparable6 (r6_zones (e6_rt e)) img (e6_cols e) \/ (exists i, identified6 (r6_zones (e6_rt e)) img (e6_cols e) (Z.of_nat (List.length (e6_words e))) i) ->
     exists f, recognise6 e n img = Ok f).
Proof.
  intros HE HR H90. pose proof (sound_base e HE) as HB. set (rt := e6_rt e) in *. set (cols := e6_cols e) in *. set (words := e6_words e) in *.
  set (N := Z.of_nat (List.length words)) in *. set (junk := r6_junk rt n). set (value := value rt img img90 junk).
  unfold recognise6. rewrite H90. cbn [bind]. cbv zeta. fold rt cols words junk.
  destruct (load_algos _ _ _ _ HB img img90 HR H90 junk) as (vs & -> & Evs). cbn [bind]. rewrite Evs. fold value. unfold vsize. fold N.
  destruct (search6_exact cols N (se_table e HE)) as (sd & E & H). pose proof (se_search e HE) as E2. fold cols in E2. rewrite E2 in E. injection E as <-.
  destruct (H value (value_range _ _ _ _ HB img img90 HR H90 junk)) as (ps & -> & So & Mem & Sc). clear H. cbn [bind].
  assert (Val : forall p, In p ps -> close6 cols N value (pr_i p) /\ pr_p p = (if tenth (val cols first_feature (pr_i p)) =? tenth (value first_feature) then d1 else d0) /\
    forall a, cell6 cols first_feature (pr_i p) (VNum a) -> a = val cols first_feature (pr_i p)).
  { intros p Hp. assert (Hc : close6 cols N value (pr_i p)) by (apply Mem; now apply in_map).
    destruct (simple_val cols N (se_table e HE) first_feature (pr_i p) first_simple (proj1 Hc)) as (_ & C & U & _). split; [exact Hc|]. split; [exact (Sc p Hp _ C)|exact U]. }
  assert (Hb : forall p, In p ps -> unitp p /\ 0 <= pr_i p < N).
  { intros p Hp. destruct (Val p Hp) as (Hc & E & _). split; [|apply Hc]. unfold unitp. rewrite E. destruct (_ =? _); [apply unit_d1|now left]. }
  assert (Cert : forall p, In p ps -> (dle d1 (pr_p p) = true <-> certain6 cols N value (pr_i p))).
  { intros p Hp. destruct (Val p Hp) as (Hc & E & U). rewrite E. destruct (Z.eqb_spec (tenth (val cols first_feature (pr_i p))) (tenth (value first_feature))) as [T|T].
    - split; [intros _|reflexivity]. split; [exact Hc|]. intros a Ha. rewrite (U a Ha). exact T.
    - split; [discriminate|]. intros (_ & H). destruct (simple_val cols N (se_table e HE) first_feature (pr_i p) first_simple (proj1 Hc)) as (_ & C & _). destruct (T (H _ C)). }
  assert (Seen : forall s, In s simple_strategies -> seen6 (r6_zones rt) img s (VNum (value s))).
  { intros s Hs. apply (seen_sv _ _ _ _ HB img img90 HR H90 junk); [now apply simple_in_all|]. symmetry. now apply (simple_sv _ _ _ _ HB img img90 HR H90 junk). }
  assert (Row : forall i, close6 cols N value i -> exists p, In p ps /\ pr_i p = i).
  { intros i Hi. apply Mem in Hi. apply in_map_iff in Hi. destruct Hi as (p & E & Hp). eauto. }
  destruct (decide6_ok _ _ _ _ HB img img90 HR H90 junk ps Hb) as (D1 & D2). split.
  - intros f E. exists value. split; [exact Seen|]. cbv zeta. fold N. destruct (D1 f E) as [(Ep & Ef)|[(ks & w & En & Hh & Ef)|(No & p & w & l & Hp & _ & Ew & K)]].
    + left. split; [|exact Ef]. intros i Hi. destruct (Row i Hi) as (p & Hp & _). rewrite Ep in Hp. destruct Hp.
    + right. left. exists ks, w. split; [|split; [exact Hh|exact Ef]]. refine (enumerates_ext _ _ _ _ _ En). intros i. split.
      * intros (p & Hp & <- & Op). now apply Cert.
      * intros Hi. destruct (Row i (proj1 Hi)) as (p & Hp & <-). exists p. split; [exact Hp|]. split; [reflexivity|]. now apply Cert.
    + right. right. split; [intros i Hi; destruct (Row i (proj1 Hi)) as (q & Hq & <-); apply Cert in Hi; [|exact Hq]; rewrite (No q Hq) in Hi; discriminate|].
      exists (pr_i p), w, l. split; [now apply Val|]. split; [exact Ew|]. destruct K as [(K & Ef)|(ks & w2 & En & Hh & Ef)].
      * left. split; [|exact Ef]. intros i (Hi & Kp). destruct (Row i Hi) as (q & Hq & <-). exact (K q Hq Kp).
      * right. exists ks, w2. split; [|split; [exact Hh|exact Ef]]. refine (enumerates_ext _ _ _ _ _ En). intros i. split.
        -- intros (q & x & Hq & <- & Kp & _). split; [now apply Val|exact Kp].
        -- intros (Hi & Kp). destruct (Row i Hi) as (q & Hq & <-).
           assert (F : forall q y, In q ps -> final_score (r6_zones rt) img cols q y -> y = d0).
           { intros q' y Hq' Fy. rewrite (final_iff _ _ _ _ HB img img90 HR H90 junk) in Fy by (now apply Hb). rewrite Fy. unfold final.
             destruct (Val q' Hq') as (_ & E' & _). specialize (No q' Hq'). rewrite E' in No |- *. destruct (_ =? _); [discriminate|]. apply share_0.
             destruct (complex_compute _ _ _ _ HB img img90 HR H90 junk alt (pr_i q') alt_complex (proj2 (Hb q' Hq'))) as (_ & _ & _ & B & _). exact B. }
           exists q, (final rt cols img img90 junk q). assert (Fq : final_score (r6_zones rt) img cols q (final rt cols img img90 junk q)) by (apply (final_iff _ _ _ _ HB img img90 HR H90 junk); [now apply Hb|reflexivity]).
           split; [exact Hq|]. split; [reflexivity|]. split; [exact Kp|]. split; [exact Fq|]. intros q' y Hq' _ Fy. rewrite (F q' y Hq' Fy), (F q _ Hq Fq). reflexivity.
  - intros H. apply D2. destruct H as [H|(i & Hi & H)]; [now left|right]. assert (Ci : certain6 cols N value i).
    { split; [split; [exact Hi|split]|].
      - intros a Ha. rewrite (H first_feature a (value first_feature) first_simple Ha (Seen _ first_simple)), Z.sub_diag. cbn. lia.
      - intros s a Hs _ Ha. exact (H s a (value s) Hs Ha (Seen s Hs)).
      - intros a Ha. exact (H first_feature a _ first_simple Ha (Seen _ first_simple)). }
    destruct (Row i (proj1 Ci)) as (p & Hp & <-). exists p. split; [exact Hp|]. now apply Cert.
Qed.
Lemma seen6_unique zsort img s v v' : seen6 zsort img s v -> seen6 zsort img s v' -> v = v'.
Proof. intros (r & E & F) (r' & E' & F'). congruence. Qed.
(** The words of an identified row are found. *)
Lemma outcome6_identified zsort img cols words f i : outcome6 zsort img cols words f -> identified6 zsort img cols (Z.of_nat (List.length words)) i ->
  f6_amb f = f6_words f /\ incl (labels6 words i) (f6_words f).
Proof.
  intros (value & Seen & O) (Hi & H). cbv zeta in O. assert (Ci : certain6 cols (Z.of_nat (List.length words)) value i).
  { split; [split; [exact Hi|split]|].
    - intros a Ha. rewrite (H first_feature a (value first_feature) first_simple Ha (Seen _ first_simple)), Z.sub_diag. cbn. lia.
    - intros s a Hs _ Ha. exact (H s a (value s) Hs Ha (Seen s Hs)).
    - intros a Ha. exact (H first_feature a _ first_simple Ha (Seen _ first_simple)). }
  destruct O as [(No & _)|[(ks & w & En & _ & ->)|(No & _)]]; [destruct (No i (proj1 Ci))| |destruct (No i Ci)].
  cbn [f6_amb f6_words]. split; [reflexivity|]. destruct (en_all _ _ _ En i Ci) as (k & Hk & Ek).
  intros x Hx. apply in_flat_map. exists k. split; [exact Hk|]. now rewrite Ek.
Qed.

Lemma recognise6_all e n img : sound_env6 e -> recognisable img ->
  (forall f, recognise6 e n img = Ok f -> outcome6 (r6_zones (e6_rt e)) img (e6_cols e) (e6_words e) f) /\
  (comparable6 (r6_zones (e6_rt e)) img (e6_cols e) \/ (exists i, identified6 (r6_zones (e6_rt e)) img (e6_cols e) (Z.of_nat (List.length (e6_words e))) i) ->
     exists f, recognise6 e n img = Ok f) /\
  (forall i f, identified6 (r6_zones (e6_rt e)) img (e6_cols e) (Z.of_nat (List.length (e6_words e))) i -> recognise6 e n img = Ok f ->
     f6_amb f = f6_words f /\ incl (labels6 (e6_words e) i) (f6_words f)).
Proof.
  intros HE HR. destruct (recognisable_turn img HR) as (img90 & E).
  destruct (recognise6_outcome e n img img90 HE HR E) as (A & B). split; [exact A|]. split; [exact B|].
  intros i f Hi Ef. exact (outcome6_identified _ _ _ _ _ _ (A f Ef) Hi).
Qed.
Theorem recognise6_exact e n img : sound_env6 e -> recognisable img ->
  (forall f, recognise6 e n img = Ok f -> outcome6 (r6_zones (e6_rt e)) img (e6_cols e) (e6_words e) f) /\
  (comparable6 (r6_zones (e6_rt e)) img (e6_cols e) -> exists f, recognise6 e n img = Ok f).
Proof. intros HE HR. destruct (recognise6_all e n img HE HR) as (A & B & _). split; [exact A|]. intros H. apply B. now left. Qed.
Theorem identified6_ok e n img i : sound_env6 e -> recognisable img ->
  identified6 (r6_zones (e6_rt e)) img (e6_cols e) (Z.of_nat (List.length (e6_words e))) i ->
  exists f, recognise6 e n img = Ok f /\ f6_amb f = f6_words f /\ incl (labels6 (e6_words e) i) (f6_words f).
Proof.
  intros HE HR Hi. destruct (recognise6_all e n img HE HR) as (_ & B & C). destruct B as (f & Ef); [right; eauto|]. exists f. split; [exact Ef|]. exact (C i f Hi Ef).
Qed.
Theorem own_row6_ok e n img i : sound_env6 e -> recognisable img ->
  own_row6 (r6_zones (e6_rt e)) img (e6_cols e) (Z.of_nat (List.length (e6_words e))) i -> unchanged_by_turn (r6_zones (e6_rt e)) img ->
  exists f, recognise6 e n img = Ok f /\ f6_amb f = f6_words f /\ incl (labels6 (e6_words e) i) (f6_words f).
Proof.
  intros HE HR (Hi & Ho) Hu. apply identified6_ok; auto. split; [exact Hi|]. intros s a b Hs Ca Sb. apply (Hu s a b Hs); [now apply Ho|exact Sb].
Qed.
