(** The features of an image that is seen in a mirror. *)
From Verif Require Import Base BaseProofs ImageModel ImageSpec ImageProofs StratModel StratSpec StratProofs StratFeatures StratFeatures2 StratFeatures3
  SortModel ZoneModel ZoneSpec ZoneProofs2 ZoneProofs3 TurnSpec TurnProofs MirrorSpec.
From Coq Require Import Permutation.

Lemma wedge_mirror w h x y : in_wedge w h (w - 1 - x) y = in_wedge w h x y.
Proof. unfold in_wedge. rewrite andb_comm. f_equal; apply Bool.eq_true_iff_eq; rewrite ?Z.leb_le, ?Z.ltb_lt; lia. Qed.

Section Mirror.
Context (a b : image) (M : mirrored a b) (Wa : wf_image a) (Hw : 1 <= iw a) (Hh : 1 <= ih a).
Notation W := (iw a). Notation H := (ih a).
Lemma mw : iw b = iw a. Proof. apply M. Qed.
Lemma mh : ih b = ih a. Proof. apply M. Qed.
Lemma mwf : wf_image b. Proof. apply M. Qed.
Lemma mirror_ink x y : 0 <= x < W -> 0 <= y < H -> ink b x y = ink a (W - 1 - x) y.
Proof. intros. unfold ink. destruct M as (_ & _ & _ & P). rewrite P by lia. reflexivity. Qed.
Lemma mirror_sum f g : (forall x y, 0 <= x < W -> 0 <= y < H -> f x y = g (W - 1 - x) y) -> ink_sum b f = ink_sum a g.
Proof.
  intros E. unfold ink_sum. rewrite mw, mh. apply zsum_ext. intros y Hy.
  rewrite <- (zsum_rev (fun x => if ink a x y then g x y else 0)) by lia. apply zsum_ext. intros x Hx. rewrite mirror_ink by lia. rewrite E by lia. reflexivity.
Qed.
Lemma m_half s : ink_sum b (half s b) = ink_sum a (half s a).
Proof. apply mirror_sum. intros. unfold half. now rewrite mh. Qed.
Lemma m_gravity s : ink_sum b (half_gravity s b) = ink_sum a (half_gravity s a).
Proof. apply mirror_sum. intros. unfold half_gravity. now rewrite mh. Qed.
Lemma m_wedge s : ink_sum b (wedge s b) = ink_sum a (wedge s a).
Proof. apply mirror_sum. intros. unfold wedge. rewrite mh, mw. now rewrite wedge_mirror. Qed.
Lemma m_wgravity s : ink_sum b (wedge_gravity s b) = ink_sum a (wedge_gravity s a).
Proof. apply mirror_sum. intros. unfold wedge_gravity. rewrite mh, mw. now rewrite wedge_mirror. Qed.
Lemma m_cells f g : (forall x y, f x y = g x y) -> cell_sum b f = cell_sum a g.
Proof. intros E. unfold cell_sum. rewrite mw, mh. apply zsum_ext. intros y Hy. apply zsum_ext. intros x Hx. apply E. Qed.

Lemma mirror_features : 100 * (W * H) < 4294967296 -> 100 * (W * H * H) < 4294967296 ->
  hdirection b = hdirection a /\ hdirection2 b = hdirection2 a /\ hgravity b = hgravity a /\ hgravity2 b = hgravity2 a /\
  dvdirection b = dvdirection a /\ dvdirection2 b = dvdirection2 a /\ dvgravity b = dvgravity a /\ dvgravity2 b = dvgravity2 a /\
  density b = density a /\ proportionality b = proportionality a.
Proof.
  intros B B'. pose proof mwf as Wb. assert (Bw : 1 <= iw b) by (rewrite mw; lia). assert (Bh : 1 <= ih b) by (rewrite mh; lia).
  assert (C : 100 * (iw b * ih b) < 4294967296) by (rewrite mw, mh; exact B). assert (C' : 100 * (iw b * ih b * ih b) < 4294967296) by (rewrite mw, mh; exact B').
  split. { destruct (hdirection_ok a Wa Hw Hh B) as (-> & _). destruct (hdirection_ok b Wb Bw Bh C) as (-> & _). now rewrite !m_half. }
  split. { destruct (hdirection2_ok a Wa Hw Hh B) as (u & -> & _ & ->). destruct (hdirection2_ok b Wb Bw Bh C) as (v & -> & _ & ->).
    rewrite !m_half, mh, (m_cells (half upper b) (half upper a)); [reflexivity|]. intros. unfold half. now rewrite mh. }
  split. { destruct (hgravity_ok a Wa Hw Hh B') as (-> & _). destruct (hgravity_ok b Wb Bw Bh C') as (-> & _). now rewrite !m_gravity. }
  split. { destruct (hgravity2_ok a Wa Hw Hh B') as (u & -> & _ & ->). destruct (hgravity2_ok b Wb Bw Bh C') as (v & -> & _ & ->).
    rewrite !m_gravity, mh, (m_cells (half_gravity upper b) (half_gravity upper a)); [reflexivity|]. intros. unfold half_gravity. now rewrite mh. }
  split. { destruct (dvdirection_ok a Wa Hw Hh B) as (-> & _). destruct (dvdirection_ok b Wb Bw Bh C) as (-> & _). now rewrite !m_wedge. }
  split. { destruct (dvdirection2_ok a Wa Hw Hh B) as (u & -> & _ & ->). destruct (dvdirection2_ok b Wb Bw Bh C) as (v & -> & _ & ->).
    rewrite !m_wedge, mh, (m_cells (wedge upper b) (wedge upper a)); [reflexivity|]. intros. unfold wedge. now rewrite mh, mw. }
  split. { destruct (dvgravity_ok a Wa Hw Hh B') as (-> & _). destruct (dvgravity_ok b Wb Bw Bh C') as (-> & _). now rewrite !m_wgravity. }
  split. { destruct (dvgravity2_ok a Wa Hw Hh B') as (u & -> & _ & ->). destruct (dvgravity2_ok b Wb Bw Bh C') as (v & -> & _ & ->).
    rewrite !m_wgravity, mh, (m_cells (wedge_gravity upper b) (wedge_gravity upper a)); [reflexivity|]. intros. unfold wedge_gravity. now rewrite mh, mw. }
  split.
  - destruct (density_ok a (conj Wa (conj Hw (conj Hh B)))) as (u & -> & _ & ->). destruct (density_ok b (conj Wb (conj Bw (conj Bh C)))) as (v & -> & _ & ->).
    rewrite mw, mh. now rewrite (mirror_sum (fun _ _ => 1) (fun _ _ => 1)).
  - unfold proportionality. now rewrite mw, mh.
Qed.
Lemma m_full y : full_row b y = full_row a y.
Proof.
  destruct (Z_lt_le_dec y 0) as [L|L]; [rewrite !full_outside by (rewrite ?mw, ?mh; lia); reflexivity|].
  destruct (Z_lt_le_dec y H) as [L2|L2]; [|rewrite !full_outside by (rewrite ?mw, ?mh; lia); reflexivity].
  unfold full_row. rewrite mw. apply Bool.eq_true_iff_eq. rewrite !forallb_forall. split; intros F x Hx; apply zrange_In in Hx.
  - specialize (F (W - 1 - x)). rewrite mirror_ink in F by lia. replace (W - 1 - (W - 1 - x)) with x in F by lia. apply F. apply zrange_In. lia.
  - rewrite mirror_ink by lia. apply F. apply zrange_In. lia.
Qed.
Lemma mirror_hbar : hbar b = hbar a.
Proof.
  rewrite (hbar_ok a Wa Hw), (hbar_ok b mwf) by (rewrite mw; lia). f_equal. unfold bar_count. rewrite mh. apply zsum_ext. intros y Hy. now rewrite !m_full.
Qed.

(** * Alternations *)
Lemma m_column y0 y1 x : 0 <= y0 -> y1 <= H -> 0 <= x < W -> column_ink b y0 y1 x = column_ink a y0 y1 (W - 1 - x).
Proof.
  intros H0 H1 Hx. unfold column_ink. apply Bool.eq_true_iff_eq. rewrite !existsb_exists. split; intros (i & Hi & E); exists i; (split; [exact Hi|]); apply zrange_In in Hi.
  - now rewrite mirror_ink in E by lia.
  - now rewrite mirror_ink by lia.
Qed.
Lemma m_row x0 x1 y : 0 <= x0 -> x1 <= W -> 0 <= y < H -> row_ink b x0 x1 y = row_ink a (W - x1) (W - x0) y.
Proof.
  intros H0 H1 Hx. unfold row_ink. replace (W - x0 - (W - x1)) with (x1 - x0) by lia. apply existsb_turn. intros i Hi. rewrite mirror_ink by lia. f_equal; lia.
Qed.
Lemma line_ext f g n : 1 <= n -> (forall i, 0 <= i < n -> g i = f i) -> line_alternation g n = line_alternation f n.
Proof. intros Hn E. unfold line_alternation, run_count. rewrite E by lia. do 2 f_equal. apply zsum_ext. intros i Hi. now rewrite !E by lia. Qed.
Lemma mirror_alternations_spec : 2 <= H ->
  exists r1 r2 t u m l r, alternations_spec a = [r1; r2; t; u; m; l; r] /\
  exists m', alternations_spec b = [from_end r1; from_end r2; from_end t; from_end u; m'; r; l] /\ (Z.odd W = true -> m' = m).
Proof.
  intros H2. unfold alternations_spec. rewrite mw, mh. replace (H <? 2) with false by lia. set (w := iw a) in *. set (h := ih a) in *.
  assert (D3 : 0 <= h / 3 <= h) by (pose proof (Z.div_mod h 3); pose proof (Z.mod_pos_bound h 3); lia).
  assert (D3' : 0 <= w / 3 <= w) by (pose proof (Z.div_mod w 3); pose proof (Z.mod_pos_bound w 3); lia).
  assert (Y1 : 0 <= (h - 2) / 3 < h) by (pose proof (Z.div_mod (h - 2) 3); pose proof (Z.mod_pos_bound (h - 2) 3); lia).
  assert (Y2 : 0 <= (2 * h - 1) / 3 < h) by (pose proof (Z.div_mod (2 * h - 1) 3); pose proof (Z.mod_pos_bound (2 * h - 1) 3); lia).
  do 7 eexists. split; [reflexivity|].
  rewrite (line_from_end (fun x => ink a x ((h - 2) / 3)) (fun x => ink b x ((h - 2) / 3))) by (try exact Hw; intros i Hi; apply mirror_ink; fold w h; lia).
  rewrite (line_from_end (fun x => ink a x ((2 * h - 1) / 3)) (fun x => ink b x ((2 * h - 1) / 3))) by (try exact Hw; intros i Hi; apply mirror_ink; fold w h; lia).
  rewrite (line_from_end (fun x => column_ink a 0 (h / 3) x) (fun x => column_ink b 0 (h / 3) x)) by (try exact Hw; intros i Hi; apply m_column; fold w h; lia).
  rewrite (line_from_end (fun x => column_ink a (h - h / 3) h x) (fun x => column_ink b (h - h / 3) h x)) by (try exact Hw; intros i Hi; apply m_column; fold w h; lia).
  rewrite (line_ext (fun y => row_ink a (w - w / 3) w y) (fun y => row_ink b 0 (w / 3) y)) by
    (try exact Hh; intros i Hi; rewrite m_row by (fold w h; lia); fold w h; f_equal; lia).
  rewrite (line_ext (fun y => row_ink a 0 (w / 3) y) (fun y => row_ink b (w - w / 3) w y)) by
    (try exact Hh; intros i Hi; rewrite m_row by (fold w h; lia); fold w h; f_equal; lia).
  eexists. split; [reflexivity|]. intros O. apply line_ext; [exact Hh|]. intros i Hi.
  pose proof (Zmod_odd w) as E. rewrite O in E. pose proof (Z.div_mod w 2 ltac:(lia)) as D. rewrite mirror_ink by (fold w h; lia). fold w h. f_equal; lia.
Qed.

(** * Zones *)
Definition mf (x y : Z) : Z * Z := (W - 1 - x, y).
Lemma mf_paper x y : paper a x y = true -> paper b (fst (mf x y)) (snd (mf x y)) = true.
Proof.
  intros P. pose proof (paper_inside _ _ _ P). cbn [mf fst snd]. unfold paper in *. destruct M as (_ & _ & _ & E). rewrite E by lia. now replace (W - 1 - (W - 1 - x)) with x by lia.
Qed.
Lemma mg_paper x y : paper b x y = true -> paper a (fst (mf x y)) (snd (mf x y)) = true.
Proof.
  intros P. pose proof (paper_inside _ _ _ P) as I. rewrite mw, mh in I. cbn [mf fst snd]. unfold paper in *. destruct M as (_ & _ & _ & E). rewrite E in P by lia. exact P.
Qed.
Lemma mff x y : mf (fst (mf x y)) (snd (mf x y)) = (x, y).
Proof. unfold mf. cbn [fst snd]. f_equal; lia. Qed.
Lemma mf_linked p q : linked a p q -> linked b (mf (fst p) (snd p)) (mf (fst q) (snd q)).
Proof.
  induction 1 as [x y P|p q x y L IH T P]; cbn [fst snd] in *.
  - apply mf_paper in P. cbn [mf fst snd] in *. now constructor.
  - apply linked_next with (mf (fst q) (snd q)); [exact IH| |now apply mf_paper in P]. unfold touching, mf in *. cbn [fst snd] in *. lia.
Qed.
Lemma mg_linked p q : linked b p q -> linked a (mf (fst p) (snd p)) (mf (fst q) (snd q)).
Proof.
  induction 1 as [x y P|p q x y L IH T P]; cbn [fst snd] in *.
  - apply mg_paper in P. cbn [mf fst snd] in *. now constructor.
  - apply linked_next with (mf (fst q) (snd q)); [exact IH| |now apply mg_paper in P]. unfold touching, mf in *. cbn [fst snd] in *. lia.
Qed.
Lemma mf_iff x y x' y' : paper a x y = true -> paper a x' y' = true -> (linked a (x, y) (x', y') <-> linked b (mf x y) (mf x' y')).
Proof. intros _ _. split; intros L; [exact (mf_linked _ _ L)|]. apply mg_linked in L. now rewrite !mff in L. Qed.
Lemma mg_iff x y x' y' : paper b x y = true -> paper b x' y' = true -> (linked b (x, y) (x', y') <-> linked a (mf x y) (mf x' y')).
Proof. intros _ _. split; intros L; [exact (mg_linked _ _ L)|]. apply mf_linked in L. now rewrite !mff in L. Qed.

Context (ka kb : Z) (la lb : Z -> Z -> Z) (Na : zone_numbering a ka la) (Nb : zone_numbering b kb lb) (Ka : 0 <= ka) (Kb : 0 <= kb).
Notation lf x y := (lb (fst (mf x y)) (snd (mf x y))).
Lemma m_zones (P Q : Z -> bool) : (forall x y, paper a x y = true -> P (la x y) = Q (lf x y)) -> count_zones ka P = count_zones kb Q.
Proof.
  intros E. apply Z.le_antisymm.
  - apply (zones_le a b mf ka kb la lb Na Nb Ka Kb mf_paper mf_iff). intros x y Hp HP. now rewrite <- E.
  - apply (zones_le b a mf kb ka lb la Nb Na Kb Ka mg_paper mg_iff). intros x y Hp HQ. rewrite E by now apply mg_paper. now rewrite mff.
Qed.
Lemma m_label x y x' y' : paper a x y = true -> (la x' y' =? la x y) = (lb (fst (mf x' y')) (snd (mf x' y')) =? lf x y).
Proof.
  intros P. pose proof (proj1 Na _ _ P) as Ra. pose proof (proj1 Nb _ _ (mf_paper _ _ P)) as Rb.
  destruct (paper a x' y') eqn:P'.
  - apply Bool.eq_true_iff_eq. rewrite !Z.eqb_eq. exact (lb_same a b mf ka kb la lb Na Nb mf_paper mf_iff x' y' x y P' P).
  - rewrite (proj1 (proj2 Na) _ _ P'). assert (Q : paper b (fst (mf x' y')) (snd (mf x' y')) = false).
    { destruct (paper b (fst (mf x' y')) (snd (mf x' y'))) eqn:Q; [|reflexivity]. apply mg_paper in Q. rewrite mff in Q. cbn [fst snd] in Q. congruence. }
    rewrite (proj1 (proj2 Nb) _ _ Q). destruct (Z.eqb_spec 0 (la x y)), (Z.eqb_spec 0 (lf x y)); lia.
Qed.
Lemma m_top x y : paper a x y = true -> on_top b lb (lf x y) = on_top a la (la x y).
Proof.
  intros P. unfold on_top. rewrite mw. rewrite <- (zsum_rev (fun i => if la i 0 =? la x y then 1 else 0)) by lia. apply zsum_ext. intros i Hi.
  rewrite (m_label x y (W - 1 - i) 0 P). cbn [mf fst snd]. replace (W - 1 - (W - 1 - i)) with i by lia. reflexivity.
Qed.
Lemma m_bottom x y : paper a x y = true -> on_bottom b lb (lf x y) = on_bottom a la (la x y).
Proof.
  intros P. unfold on_bottom. rewrite mw, mh. rewrite <- (zsum_rev (fun i => if la i (H - 1) =? la x y then 1 else 0)) by lia. apply zsum_ext. intros i Hi.
  rewrite (m_label x y (W - 1 - i) (H - 1) P). cbn [mf fst snd]. replace (W - 1 - (W - 1 - i)) with i by lia. reflexivity.
Qed.
Lemma m_right x y : paper a x y = true -> on_right b lb (lf x y) = on_left a la (la x y).
Proof.
  intros P. unfold on_right, on_left. rewrite mw, mh. apply zsum_ext. intros i Hi. rewrite (m_label x y 0 i P). cbn [mf fst snd]. replace (W - 1 - 0) with (W - 1) by lia. reflexivity.
Qed.
Lemma m_left x y : paper a x y = true -> on_left b lb (lf x y) = on_right a la (la x y).
Proof.
  intros P. unfold on_right, on_left. rewrite mh. apply zsum_ext. intros i Hi. rewrite (m_label x y (W - 1) i P). cbn [mf fst snd]. replace (W - 1 - (W - 1)) with 0 by lia. reflexivity.
Qed.
End Mirror.

Lemma mirror_zones junk ctx junk' ctx' a b : ordinary a -> mirrored a b ->
  exists t r u l e, zones_of junk ctx a = Ok [bool_u (ink a 0 0); bool_u (ink a (iw a - 1) (ih a - 1)); t; r; u; l; e] /\
    zones_of junk' ctx' b = Ok [bool_u (ink a (iw a - 1) 0); bool_u (ink a 0 (ih a - 1)); t; l; u; r; e].
Proof.
  intros O M. pose proof (ordinary_bounds a O) as (_ & _ & B & _). destruct O as (Wa & Hw & Hh & _). pose proof M as (Wb & Ew & Eh & _).
  destruct (zones_of_ok junk ctx a Wa Hw Hh ltac:(lia)) as (ka & la & Ka & Na & Za).
  destruct (zones_of_ok junk' ctx' b Wb) as (kb & lb & Kb & Nb & Zb); [lia|lia|rewrite Ew, Eh; lia|].
  do 5 eexists. split; [exact Za|]. rewrite Zb. rewrite !(mirror_ink a b M) by lia. rewrite Ew, Eh.
  replace (iw a - 1 - 0) with (iw a - 1) by lia. replace (iw a - 1 - (iw a - 1)) with 0 by lia.
  pose proof (m_top a b M Hw ka kb la lb Na Nb) as T. pose proof (m_right a b M ka kb la lb Na Nb) as Rr.
  pose proof (m_bottom a b M Hw ka kb la lb Na Nb) as U. pose proof (m_left a b M ka kb la lb Na Nb) as L.
  rewrite (m_zones a b M ka kb la lb Na Nb Ka Kb (fun v => 0 <? on_right a la v) (fun v => 0 <? on_left b lb v)) by (intros; now rewrite L).
  rewrite (m_zones a b M ka kb la lb Na Nb Ka Kb (fun v => 0 <? on_bottom a la v) (fun v => 0 <? on_bottom b lb v)) by (intros; now rewrite U).
  rewrite (m_zones a b M ka kb la lb Na Nb Ka Kb (fun v => 0 <? on_left a la v) (fun v => 0 <? on_right b lb v)) by (intros; now rewrite Rr).
  rewrite (m_zones a b M ka kb la lb Na Nb Ka Kb (fun v => 0 <? on_top a la v) (fun v => 0 <? on_top b lb v)) by (intros; now rewrite T).
  rewrite (m_zones a b M ka kb la lb Na Nb Ka Kb
    (fun v => negb ((0 <? on_top a la v) || (0 <? on_right a la v) || (0 <? on_bottom a la v) || (0 <? on_left a la v)))
    (fun v => negb ((0 <? on_top b lb v) || (0 <? on_right b lb v) || (0 <? on_bottom b lb v) || (0 <? on_left b lb v)))).
  2: { intros x y P. rewrite T, Rr, U, L by exact P.
       destruct (0 <? on_top a la (la x y)), (0 <? on_right a la (la x y)), (0 <? on_bottom a la (la x y)), (0 <? on_left a la (la x y)); reflexivity. }
  reflexivity.
Qed.
Lemma mirrored_features a b : ordinary a -> mirrored a b ->
  density b = density a /\ proportionality b = proportionality a /\ hbar b = hbar a /\
  hdirection b = hdirection a /\ hdirection2 b = hdirection2 a /\ hgravity b = hgravity a /\ hgravity2 b = hgravity2 a /\
  dvdirection b = dvdirection a /\ dvdirection2 b = dvdirection2 a /\ dvgravity b = dvgravity a /\ dvgravity2 b = dvgravity2 a.
Proof.
  intros O M. pose proof (ordinary_bounds a O) as (B1 & B2 & _). destruct O as (Wa & Hw & Hh & _).
  destruct (mirror_features a b M Wa Hw Hh ltac:(lia) B2) as (F1 & F2 & F3 & F4 & F5 & F6 & F7 & F8 & F9 & F10). pose proof (mirror_hbar a b M Wa Hw) as F11. repeat split; assumption.
Qed.
Lemma mirrored_alternations a b : ordinary a -> mirrored a b -> 2 <= ih a ->
  exists r1 r2 t u m l r, alternations_of a = Ok [r1; r2; t; u; m; l; r] /\
  exists m', alternations_of b = Ok [from_end r1; from_end r2; from_end t; from_end u; m'; r; l] /\ (Z.odd (iw a) = true -> m' = m).
Proof.
  intros O M H2. pose proof (ordinary_bounds a O) as (_ & _ & _ & _ & B). destruct O as (Wa & Hw & Hh & _). pose proof M as (Wb & Ew & Eh & _).
  destruct (alternations_ok a Wa Hw Hh B) as (qa & Ra & Aa). destruct (alternations_ok b Wb ltac:(lia) ltac:(lia) ltac:(lia)) as (qb & Rb & Ab).
  destruct (mirror_alternations_spec a b M Hw Hh H2) as (r1 & r2 & t & u & m & l & r & Sa & m' & Sb & E).
  exists r1, r2, t, u, m, l, r. unfold alternations_of. rewrite Ra, Rb. cbn [bind]. rewrite Aa, Ab, Sa, Sb. split; [reflexivity|]. exists m'. auto.
Qed.
Lemma mirror_exists a : wf_image a -> exists b, mirrored a b.
Proof.
  intros W. assert (W' := W). destruct W' as (Hw & Hh & Ha & Hl). exists (mkimage (iw a) (ih a) (rowmajor (iw a) (ih a) (fun x y => match pix a (iw a - 1 - x) y with Some p => p | None => 0 end))).
  split; [apply rowmajor_wf; lia|]. split; [reflexivity|]. split; [reflexivity|]. intros x y Hx Hy. rewrite rowmajor_pix by lia.
  destruct (pix a (iw a - 1 - x) y) as [p|] eqn:E; [reflexivity|]. unfold pix in E. replace (_ && _ && _ && _) with true in E by lia. apply nth_error_None in E. pose proof (idx_bound (iw a) (ih a) (iw a - 1 - x) y). lia.
Qed.
Lemma mirror_ordinary a b : ordinary a -> mirrored a b -> ordinary b.
Proof. intros (_ & H1 & H2 & H3) (W & E1 & E2 & _). unfold ordinary. rewrite E1, E2. auto. Qed.
(** Upside down is half a turn in a mirror. *)
Lemma flip_mirror a b : wf_image a -> flipped a b -> exists c, mirrored a c /\ turned_twice c b.
Proof.
  intros W (Wb & Ew & Eh & P). destruct (mirror_exists a W) as (c & M). exists c. split; [exact M|]. pose proof M as (Wc & Cw & Ch & Cp).
  destruct (twice_exists c Wc) as (d & T). destruct (twice_half c d Wc T) as (Wd & Dw & Dh & Dp). replace b with d; [exact T|].
  apply image_ext; [exact (wf_full _ Wd)|exact (wf_full _ Wb)|]. split; [lia|]. split; [lia|]. intros x y.
  destruct (Z_lt_le_dec x 0) as [L|L]; [rewrite !pix_outside by lia; reflexivity|]. destruct (Z_lt_le_dec y 0) as [L2|L2]; [rewrite !pix_outside by lia; reflexivity|].
  destruct (Z_lt_le_dec x (iw a)) as [L3|L3]; [|rewrite !pix_outside by lia; reflexivity]. destruct (Z_lt_le_dec y (ih a)) as [L4|L4]; [|rewrite !pix_outside by lia; reflexivity].
  rewrite Dp, Cp, P by lia. f_equal; lia.
Qed.
Lemma flipped_features junk ctx junk' ctx' a b : ordinary a -> flipped a b ->
  density b = density a /\ proportionality b = proportionality a /\ hbar b = hbar a /\
  opposite 200 (hdirection a) (hdirection b) /\ opposite 100 (hdirection2 a) (hdirection2 b) /\ opposite 200 (hgravity a) (hgravity b) /\ opposite 100 (hgravity2 a) (hgravity2 b) /\
  opposite 200 (dvdirection a) (dvdirection b) /\ opposite 200 (dvgravity a) (dvgravity b) /\
  exists t r u l e, zones_of junk ctx a = Ok [bool_u (ink a 0 0); bool_u (ink a (iw a - 1) (ih a - 1)); t; r; u; l; e] /\
    zones_of junk' ctx' b = Ok [bool_u (ink a 0 (ih a - 1)); bool_u (ink a (iw a - 1) 0); u; r; t; l; e].
Proof.
  intros O F. destruct (flip_mirror a b (proj1 O) F) as (c & M & T). pose proof (mirror_ordinary a c O M) as Oc.
  destruct (mirrored_features a c O M) as (F1 & F2 & F3 & F4 & F5 & F6 & F7 & F8 & F9 & F10 & F11).
  destruct (turned_features c b Oc T) as (G1 & G2 & _ & G3 & G4 & G5 & G6 & G7 & G8 & G9). rewrite F4 in G4. rewrite F5 in G5. rewrite F6 in G6. rewrite F7 in G7. rewrite F8 in G8. rewrite F10 in G9.
  repeat (split; [congruence || assumption|]).
  destruct (mirror_zones junk ctx junk ctx a c O M) as (t & r & u & l & e & Z1 & Z2). destruct (turned_zones junk ctx junk' ctx' c b Oc T) as (p & q & t' & r' & u' & l' & e' & Z3 & Z4).
  rewrite Z2 in Z3. injection Z3 as <- <- <- <- <- <- <-. do 5 eexists. split; [exact Z1|exact Z4].
Qed.
Lemma mirrored_count junk ctx junk' ctx' sort sort' a b : ordinary a -> is_std_sort Z.ltb sort -> is_std_sort Z.ltb sort' -> mirrored a b ->
  exists p q, proportions_of junk ctx sort a = Ok p /\ proportions_of junk' ctx' sort' b = Ok q /\ List.length p = List.length q.
Proof.
  intros O S1 S2 M. pose proof (ordinary_bounds a O) as (_ & _ & B & _). destruct O as (Wa & Hw & Hh & _). pose proof M as (Wb & Ew & Eh & _).
  destruct (proportions_law junk a ctx sort Wa Hw Hh B S1) as (ka & la & za & p & Ea & Na & Pa & _ & Pp & _).
  destruct (proportions_law junk' b ctx' sort' Wb) as (kb & lb & zb & q & Eb & Nb & Pb & _ & Pq & _); [lia|lia|rewrite Ew, Eh; lia|exact S2|].
  exists p, q. unfold proportions_of. rewrite Ea, Eb. cbn [bind]. split; [exact Pa|]. split; [exact Pb|].
  apply Permutation_length in Pp, Pq. rewrite map_length in Pp, Pq. rewrite Pp, Pq. apply Nat2Z.inj.
  apply numbering_max in Na, Nb. rewrite <- (border_zones_max a), <- (border_zones_max b). rewrite !border_count by lia.
  apply (m_zones a b M _ _ la lb Na Nb); [lia|lia|]. intros x y P. rewrite !contact_any.
  rewrite (m_top a b M Hw _ _ la lb Na Nb x y P), (m_right a b M _ _ la lb Na Nb x y P), (m_bottom a b M Hw _ _ la lb Na Nb x y P), (m_left a b M _ _ la lb Na Nb x y P).
  destruct (0 <? on_top a la (la x y)), (0 <? on_right a la (la x y)), (0 <? on_bottom a la (la x y)), (0 <? on_left a la (la x y)); reflexivity.
Qed.
Definition same_cells (a b : image) (f : Z -> Z -> Z * Z) : bool :=
  forallb (fun y => forallb (fun x => match pix b x y, pix a (fst (f x y)) (snd (f x y)) with Some p, Some q => p =? q | _, _ => false end) (zrange (iw a))) (zrange (ih a)).
Lemma same_cells_ok a b f x y : same_cells a b f = true -> 0 <= x < iw a -> 0 <= y < ih a -> pix b x y = pix a (fst (f x y)) (snd (f x y)).
Proof.
  intros S Hx Hy. unfold same_cells in S. rewrite forallb_forall in S. specialize (S y (proj2 (zrange_In _ _) Hy)). cbv beta in S. rewrite forallb_forall in S.
  specialize (S x (proj2 (zrange_In _ _) Hx)). cbv beta in S. destruct (pix b x y), (pix a _ _); try discriminate. f_equal. now apply Z.eqb_eq.
Qed.
Lemma mirrored_check a b : wf_image b -> iw b = iw a -> ih b = ih a -> same_cells a b (fun x y => (iw a - 1 - x, y)) = true -> mirrored a b.
Proof. intros W E1 E2 S. split; [exact W|]. split; [exact E1|]. split; [exact E2|]. intros x y Hx Hy. exact (same_cells_ok _ _ _ x y S Hx Hy). Qed.
Lemma flipped_check a b : wf_image b -> iw b = iw a -> ih b = ih a -> same_cells a b (fun x y => (x, ih a - 1 - y)) = true -> flipped a b.
Proof. intros W E1 E2 S. split; [exact W|]. split; [exact E1|]. split; [exact E2|]. intros x y Hx Hy. exact (same_cells_ok _ _ _ x y S Hx Hy). Qed.
