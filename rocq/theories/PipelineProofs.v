(** The rows of score 1 are those that the simple features do not tell apart from
    the image. *)
From Verif Require Import Base BaseProofs SortModel SortProofs ImageModel ImageSpec ImageProofs StratModel ZoneModel DatasModel DatasSpec DatasProofs
  IndexModel IndexSpec IndexProofs FloatModel FloatSpec FloatProofs RecogModel RecogSpec RankProofs RecogProofs RecogProofs2.
From Coq Require Import SpecFloat.

Lemma dmul_comm x y : dmul x y = dmul y x.
Proof.
  unfold dmul, SFmul. destruct x as [sx|sx| |sx mx ex], y as [sy|sy| |sy my ey]; try reflexivity; try (rewrite xorb_comm; reflexivity).
  rewrite xorb_comm, Pos.mul_comm, Z.add_comm. reflexivity.
Qed.
Lemma unit_one x : unit_double x -> dle d1 x = true -> x = d1.
Proof.
  intros U H. rewrite dle_key in H by (try exact U; exact unit_d1). apply Z.leb_le in H. apply dkey_inj; [exact U|exact unit_d1|].
  pose proof (dkey_le_1 x U). lia.
Qed.
Lemma dmul_one x y : unit_double x -> unit_double y -> dmul x y = d1 -> x = d1 /\ y = d1.
Proof.
  intros Ux Uy E. split; apply unit_one; try assumption.
  - destruct (dmul_unit x y Ux Uy) as [_ H]. rewrite E in H. exact H.
  - destruct (dmul_unit y x Uy Ux) as [_ H]. rewrite dmul_comm, E in H. exact H.
Qed.
Lemma product_one xs : xs <> [] -> (forall x, In x xs -> unit_double x) -> unit_double (product xs) /\ (product xs = d1 -> forall x, In x xs -> x = d1).
Proof.
  induction xs as [|x xs IH] using rev_ind; [congruence|]. intros _ H. destruct xs as [|y xs].
  - cbn [app product fold_left]. split; [apply H; now left|]. intros E z [<-|[]]. exact E.
  - destruct IH as (U & K); [congruence|intros z Hz; apply H, in_or_app; now left|].
    assert (Ux : unit_double x) by (apply H, in_or_app; right; now left). rewrite product_snoc by congruence.
    split; [now apply dmul_unit|]. intros E. destruct (dmul_one _ _ U Ux E) as [Ep Ex]. intros z Hz. apply in_app_iff in Hz as [Hz|[<-|[]]]; [now apply K|exact Ex].
Qed.

Section certain.
Context (inp : input) (t : table) (HI : sound_input inp) (HT : sound_table t).
Notation fv := (fv inp).
Notation cv := (cv t).
Definition hundredth (i : Z) : Prop := forall s, In s simple_strategies -> 100 * Z.abs (num (fv s) - num (cv s i)) < range s.

Lemma simple_percentage s a b : In s simple_strategies -> percentage s (VNum a) (VNum b) = 100 - 100 * Z.abs (a - b) / range s.
Proof.
  destruct s as [al r]. intros Hs. cbn in Hs. unfold percentage. cbn [st_algo].
  repeat (destruct Hs as [Hs|Hs]; [injection Hs as <- <-; reflexivity|]). contradiction.
Qed.
Lemma certain_iff i : 0 <= i < rows t -> (certain inp t i <-> hundredth i).
Proof.
  intros Hi. unfold certain. rewrite (scored_score inp t HI HT simple_strategies i d1 simple_in_all Hi), <- (near_candidate inp t HI HT i Hi).
  split.
  - intros (Cn & Sc) s Hs. unfold near in Cn. rewrite forallb_forall in Cn. unfold score in Sc.
    destruct (product_one (map (fun s => sim inp t s i) simple_strategies)) as (_ & K); [discriminate| |].
    + intros x Hx. apply in_map_iff in Hx as (s' & <- & Hs'). destruct (close_percentage inp t HI HT s' i Hs' Hi (Cn s' Hs')) as (B & _).
      apply percent_ok. lia.
    + specialize (K (eq_sym Sc) (sim inp t s i) (in_map _ _ _ Hs)). unfold sim in K.
      destruct (close_percentage inp t HI HT s i Hs Hi (Cn s Hs)) as (B & _). apply percent_ok in K; [|lia].
      destruct (simple_feature inp HI s Hs) as (_ & Ef & _). destruct (simple_cell t HT s i Hs Hi) as (Ec & _).
      rewrite Ef, Ec, simple_percentage in K by exact Hs. destruct (range_cases s) as [R|R]; rewrite R in *.
      * assert (100 * Z.abs (num (fv s) - num (cv s i)) / 100 = 0) by lia. apply Z.div_small_iff in H; lia.
      * assert (100 * Z.abs (num (fv s) - num (cv s i)) / 200 = 0) by lia. apply Z.div_small_iff in H; lia.
  - intros H.
    assert (Cl : forall s, In s simple_strategies -> closeb inp t s i = true).
    { intros s Hs. specialize (H s Hs). unfold closeb. apply Z.leb_le. destruct (range_cases s) as [R|R]; rewrite R in *;
        [change (100 / 10) with 10|change (200 / 10) with 20]; lia. }
    split; [unfold near; apply forallb_forall; exact Cl|]. unfold score.
    assert (A : forall ss, incl ss simple_strategies -> map (fun s => sim inp t s i) ss = repeat d1 (List.length ss)).
    { induction ss as [|s ss IH]; intros Hin; [reflexivity|]. cbn [map List.length repeat]. rewrite IH by (intros x Hx; apply Hin; now right).
      f_equal. assert (Hs : In s simple_strategies) by (apply Hin; now left). unfold sim.
      destruct (close_percentage inp t HI HT s i Hs Hi (Cl s Hs)) as (B & _). apply percent_ok; [lia|].
      destruct (simple_feature inp HI s Hs) as (_ & Ef & _). destruct (simple_cell t HT s i Hs Hi) as (Ec & _).
      rewrite Ef, Ec, simple_percentage by exact Hs. cbn [num]. rewrite Z.div_small; [reflexivity|]. specialize (H s Hs). lia. }
    rewrite (A simple_strategies (incl_refl _)). symmetry. change (List.length simple_strategies) with (S (List.length simple_strategies - 1)). apply product_ones.
Qed.
End certain.
