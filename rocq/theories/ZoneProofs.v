(** The flood fill labels exactly the connected components. *)
From Verif Require Import Base BaseProofs ImageModel ImageSpec ImageProofs StratModel StratSpec StratProofs ProofTools ZoneModel ZoneSpec.

(** Cells of a buffer. *)
Definition cell (m : list Z) (j : Z) : Z := nth (Z.to_nat j) m 0.
Definition zlen {A} (l : list A) : Z := Z.of_nat (List.length l).

Lemma rd_cell m j : 0 <= j < zlen m -> rd m j = Ok (cell m j).
Proof. apply rd_nth. Qed.

Lemma nth_upd (l : list Z) n k v d :
  (n < List.length l)%nat -> nth k (upd l n v) d = if Nat.eqb k n then v else nth k l d.
Proof.
  revert n k; induction l as [|a l IH]; intros [|n] [|k] H; simpl in *; try lia; auto.
  apply IH; lia.
Qed.

Lemma wr_cell m j v : 0 <= j < zlen m ->
  exists m', wr m j v = Ok m' /\ zlen m' = zlen m /\
    forall k, 0 <= k -> cell m' k = if k =? j then v else cell m k.
Proof.
  intros H. unfold zlen in *. exists (upd m (Z.to_nat j) v). split; [now apply wr_ok|]. split.
  - now rewrite upd_length.
  - intros k Hk. unfold cell. rewrite nth_upd by lia.
    destruct (Z.eqb_spec k j), (Nat.eqb_spec (Z.to_nat k) (Z.to_nat j)); auto; lia.
Qed.

Lemma NoDup_app_comm_snoc {A} (l : list A) a : NoDup l -> ~ In a l -> NoDup (l ++ [a]).
Proof.
  intros H1 H2. apply NoDup_rev in H1. rewrite <- (rev_involutive (l ++ [a])). apply NoDup_rev.
  rewrite rev_app_distr. cbn [rev app]. constructor; auto. now rewrite <- in_rev.
Qed.

Section Flood.
Variable img : image.
Hypothesis Hwf : wf_image img.
Let w := iw img.
Let h := ih img.
Let A := w * h.

Definition bgi (j : Z) : Prop := 0 <= j < A /\ is_pix_letter (nth (Z.to_nat j) (idata img) 0) = false.
Definition adj (j k : Z) : Prop :=
  Z.abs (j mod w - k mod w) + Z.abs (j / w - k / w) = 1.

Lemma adj_sym j k : adj j k -> adj k j.
Proof. unfold adj. lia. Qed.

Inductive ilinked : Z -> Z -> Prop :=
| ilinked_here j : bgi j -> ilinked j j
| ilinked_next i j k : ilinked i j -> adj j k -> bgi k -> ilinked i k.

Lemma ilinked_bg_l i j : ilinked i j -> bgi i.
Proof. induction 1; auto. Qed.
Lemma ilinked_bg_r i j : ilinked i j -> bgi j.
Proof. destruct 1; auto. Qed.
Lemma ilinked_trans i j k : ilinked i j -> ilinked j k -> ilinked i k.
Proof.
  intros H1 H2. revert H1. induction H2 as [j Hj|j l k H2 IH Ha Hk]; intros H1; [exact H1|].
  exact (ilinked_next i l k (IH H1) Ha Hk).
Qed.
Lemma ilinked_sym i j : ilinked i j -> ilinked j i.
Proof.
  induction 1 as [j Hj|i j k H IH Ha Hk]; [now constructor|].
  eapply ilinked_trans; [|exact IH]. eapply ilinked_next; [now constructor|now apply adj_sym|].
  now apply ilinked_bg_r in H.
Qed.

Lemma size_facts : 0 <= w < 4294967296 /\ 0 <= h < 4294967296 /\ A < 4294967296 /\ zlen (idata img) = A.
Proof. destruct Hwf as (H1 & H2 & H3 & H4). unfold zlen, A, w, h in *. lia. Qed.

(** Neighbours, as visited. *)
Lemma neighbours j k : 0 <= j < A -> 0 <= k < A -> adj j k ->
  (j / w <> 0 /\ k = j - w) \/ (j / w + 1 <> h /\ k = j + w) \/
  (j mod w <> 0 /\ k = j - 1) \/ (j mod w + 1 <> w /\ k = j + 1).
Proof.
  intros Hj Hk Ha. pose proof size_facts as (Hw & Hh & HA & _).
  assert (Hw0 : 0 < w) by (unfold A in *; nia).
  pose proof (Z.div_mod j w ltac:(lia)) as D1. pose proof (Z.div_mod k w ltac:(lia)) as D2.
  pose proof (Z.mod_pos_bound j w Hw0) as M1. pose proof (Z.mod_pos_bound k w Hw0) as M2.
  assert (Q1 : 0 <= j / w < h) by (split; [apply Z.div_pos; lia|apply Z.div_lt_upper_bound; unfold A in *; lia]).
  assert (Q2 : 0 <= k / w < h) by (split; [apply Z.div_pos; lia|apply Z.div_lt_upper_bound; unfold A in *; lia]).
  unfold adj in Ha. set (qj := j / w) in *. set (qk := k / w) in *.
  set (rj := j mod w) in *. set (rk := k mod w) in *. clearbody qj qk rj rk.
  assert (C : (qk = qj - 1 /\ rk = rj) \/ (qk = qj + 1 /\ rk = rj) \/ (qk = qj /\ rk = rj - 1) \/ (qk = qj /\ rk = rj + 1)) by lia.
  clear Ha. destruct C as [(-> & ->)|[(-> & ->)|[(-> & ->)|(-> & ->)]]].
  - left. split; [lia|]. nia.
  - right; left. split; [lia|]. nia.
  - right; right; left. split; lia.
  - right; right; right. split; lia.
Qed.

Lemma neighbours_in j : 0 <= j < A ->
  (j / w <> 0 -> 0 <= j - w < A /\ adj j (j - w)) /\
  (j / w + 1 <> h -> 0 <= j + w < A /\ adj j (j + w)) /\
  (j mod w <> 0 -> 0 <= j - 1 < A /\ adj j (j - 1)) /\
  (j mod w + 1 <> w -> 0 <= j + 1 < A /\ adj j (j + 1)).
Proof.
  intros Hj. pose proof size_facts as (Hw & Hh & HA & _).
  assert (Hw0 : 0 < w) by (unfold A in *; nia).
  pose proof (Z.div_mod j w ltac:(lia)) as D1.
  pose proof (Z.mod_pos_bound j w Hw0) as M1.
  assert (Q1 : 0 <= j / w < h) by (split; [apply Z.div_pos; lia|apply Z.div_lt_upper_bound; unfold A in *; lia]).
  assert (U : forall q r k, 0 <= r < w -> k = w * q + r -> k / w = q /\ k mod w = r).
  { intros q r k Hr ->. split.
    - rewrite Z.mul_comm, Z.div_add_l by lia. rewrite Z.div_small; lia.
    - rewrite Z.add_comm, Z.mul_comm, Z.mod_add by lia. apply Z.mod_small; lia. }
  unfold adj. set (q := j / w) in *. set (r := j mod w) in *. clearbody q r.
  assert (HAe : A = w * h) by reflexivity. clearbody A.
  refine (conj _ (conj _ (conj _ _))); intros Hne; (split; [nia|]).
  - destruct (U (q - 1) r (j - w)) as (E1 & E2); [lia|nia|]. rewrite E1, E2. lia.
  - destruct (U (q + 1) r (j + w)) as (E1 & E2); [lia|nia|]. rewrite E1, E2. lia.
  - destruct (U q (r - 1) (j - 1)) as (E1 & E2); [lia|nia|]. rewrite E1, E2. lia.
  - destruct (U q (r + 1) (j + 1)) as (E1 & E2); [lia|nia|]. rewrite E1, E2. lia.
Qed.

(** Unlabelled cells. *)
Definition zeros (m : list Z) : nat := List.length (filter (fun j => cell m j =? 0) (zrange A)).

Lemma filter_length_le {B} (f g : B -> bool) l :
  (forall b, In b l -> f b = true -> g b = true) ->
  (List.length (filter f l) <= List.length (filter g l))%nat.
Proof.
  induction l as [|b l IH]; intros H; cbn [filter List.length]; [lia|].
  assert (IH' := IH (fun b' Hb' => H b' (or_intror Hb'))).
  specialize (H b (or_introl eq_refl)). destruct (f b), (g b); cbn [List.length]; try lia.
  all: specialize (H eq_refl); discriminate.
Qed.

Lemma filter_length_lt {B} (f g : B -> bool) l x :
  (forall b, In b l -> f b = true -> g b = true) ->
  In x l -> f x = false -> g x = true ->
  (List.length (filter f l) < List.length (filter g l))%nat.
Proof.
  induction l as [|b l IH]; intros H Hx Hf Hg; [contradiction|].
  cbn [filter]. destruct Hx as [->|Hx].
  - rewrite Hf, Hg. cbn [List.length].
    pose proof (filter_length_le f g l (fun b' Hb' => H b' (or_intror Hb'))). lia.
  - assert (IH' := IH (fun b' Hb' => H b' (or_intror Hb')) Hx Hf Hg).
    specialize (H b (or_introl eq_refl)). destruct (f b), (g b); cbn [List.length]; try lia.
    all: specialize (H eq_refl); discriminate.
Qed.

Lemma zeros_le m : (zeros m <= Z.to_nat A)%nat.
Proof.
  unfold zeros. rewrite <- (zrange_length A).
  pose proof (filter_length_le (fun j => cell m j =? 0) (fun _ => true) (zrange A) (fun _ _ _ => eq_refl)) as L.
  assert (E : forall l : list Z, filter (fun _ => true) l = l) by (induction l as [|a l IH]; cbn; congruence).
  rewrite E in L. exact L.
Qed.

Section One.
Variables (c i : Z) (L : Z -> Z) (len : Z).
Hypothesis Hlen : 2 * A <= len.
Hypothesis Hc : 1 <= c.
Hypothesis Hi : bgi i.
Hypothesis HLi : L i = 0.
Hypothesis HLc : forall j, 0 <= j < A -> L j < c.
Hypothesis HLclosed : forall j k, 0 <= j < A -> L j <> 0 -> adj j k -> bgi k -> L k <> 0.

(** State of the fill: labels, stack [S], pixel under examination [idx],
    examined neighbours [D]. *)
Record fill (m : list Z) (S : list Z) (idx : Z) (D : list Z) : Prop := {
  f_len : zlen m = len;
  f_old : forall j, 0 <= j < A -> L j <> 0 -> cell m j = L j;
  f_new : forall j, 0 <= j < A -> L j = 0 -> cell m j = 0 \/ cell m j = c;
  f_link : forall j, 0 <= j < A -> cell m j = c -> ilinked i j;
  f_i : cell m i = c;
  f_stack : forall t, (t < List.length S)%nat -> cell m (A + Z.of_nat t) = nth t S 0;
  f_pend : forall j, In j (idx :: S) -> 0 <= j < A /\ cell m j = c;
  f_nodup : NoDup (idx :: S);
  f_closed : forall j, 0 <= j < A -> cell m j = c -> ~ In j (idx :: S) ->
     forall k, adj j k -> bgi k -> cell m k <> 0;
  f_done : forall k, In k D -> bgi k -> cell m k <> 0 }.

Lemma push_if_ok m S idx D k :
  fill m S idx D -> 0 <= k < A -> adj idx k ->
  exists m' S', push_if img c k (m, A + zlen S) = Ok (m', A + zlen S') /\
    fill m' S' idx (k :: D) /\ (2 * zeros m' + List.length S' <= 2 * zeros m + List.length S)%nat.
Proof.
  intros F Hk Ha. pose proof size_facts as (Hw & Hh & HA & Hd). destruct F. unfold push_if.
  rewrite rd_cell by lia. cbn [bind].
  destruct (Z.eqb_spec (cell m k) 0) as [E0|E0]; cbn [negb].
  2: { exists m, S. split; [reflexivity|]. split; [|lia]. constructor; auto.
       intros k' [->|Hk'] Hb; auto. }
  rewrite rd_cell by lia. cbn [bind]. unfold cell at 1.
  destruct (is_pix_letter (nth (Z.to_nat k) (idata img) 0)) eqn:Ep.
  { exists m, S. split; [reflexivity|]. split; [|lia]. constructor; auto.
    intros k' [->|Hk'] Hb; auto. destruct Hb as (_ & Hb). congruence. }
  assert (Hbg : bgi k) by (split; assumption).
  assert (HLk : L k = 0). { destruct (Z.eq_dec (L k) 0); auto. rewrite f_old0 in E0 by auto. congruence. }
  assert (Hnk : ~ In k (idx :: S)). { intros Hin. apply f_pend0 in Hin. lia. }
  assert (Hcount : zlen S + 2 <= A).
  { assert (N : NoDup (k :: idx :: S)) by (constructor; auto).
    assert (I : incl (k :: idx :: S) (zrange A)).
    { intros j [<-|Hj]; apply zrange_In; [lia|]. now apply f_pend0. }
    pose proof (NoDup_incl_length N I) as Hl. rewrite zrange_length in Hl. cbn [List.length] in Hl.
    unfold zlen. lia. }
  unfold zlen in Hcount.
  destruct (wr_cell m k c) as (m1 & -> & Hl1 & Hc1); [lia|]. cbn [bind].
  destruct (wr_cell m1 (A + zlen S) k) as (m2 & -> & Hl2 & Hc2); [unfold zlen in *; lia|]. cbn [bind].
  assert (Hlow : forall j, 0 <= j < A -> cell m2 j = if j =? k then c else cell m j).
  { intros j Hj. rewrite Hc2 by lia. destruct (Z.eqb_spec j (A + zlen S)); [unfold zlen in *; lia|]. now apply Hc1. }
  exists m2, (S ++ [k]). split.
  { f_equal. f_equal. unfold zlen. rewrite app_length. cbn [List.length]. lia. }
  assert (Hcell : forall j, 0 <= j < A -> cell m j = c -> cell m2 j = c).
  { intros j Hj E. rewrite Hlow by auto. destruct (j =? k); auto. }
  assert (Hcell0 : forall j, 0 <= j < A -> cell m j <> 0 -> cell m2 j <> 0).
  { intros j Hj E. rewrite Hlow by auto. destruct (j =? k); lia. }
  assert (Hidx : 0 <= idx < A /\ cell m idx = c) by (apply f_pend0; now left).
  split; [constructor|].
  - lia.
  - intros j Hj Hn. rewrite Hlow by auto. destruct (Z.eqb_spec j k); [congruence|auto].
  - intros j Hj Hn. rewrite Hlow by auto. destruct (Z.eqb_spec j k); [now right|auto].
  - intros j Hj E. rewrite Hlow in E by auto. destruct (Z.eqb_spec j k) as [->|]; [|auto].
    eapply ilinked_next; [|exact Ha|exact Hbg]. apply f_link0; tauto.
  - destruct Hi as (Hi1 & _). apply Hcell; auto.
  - intros t Ht. rewrite app_length in Ht. cbn [List.length] in Ht. rewrite Hc2 by lia.
    destruct (Z.eqb_spec (A + Z.of_nat t) (A + zlen S)) as [E|E]; unfold zlen in E.
    + rewrite app_nth2 by lia. now replace (t - List.length S)%nat with 0%nat by lia.
    + rewrite app_nth1 by lia. rewrite Hc1 by lia.
      destruct (Z.eqb_spec (A + Z.of_nat t) k); [lia|]. apply f_stack0. lia.
  - intros j Hj. assert (Hj' : In j (idx :: S) \/ j = k).
    { destruct Hj as [->|Hj]; [left; now left|]. apply in_app_or in Hj. destruct Hj as [Hj|[->|[]]]; auto.
      left; now right. }
    destruct Hj' as [Hj'| ->].
    + apply f_pend0 in Hj'. split; [tauto|]. apply Hcell; tauto.
    + split; [lia|]. rewrite Hlow by lia. now rewrite Z.eqb_refl.
  - inversion f_nodup0 as [|? ? H1 H2]. subst. constructor.
    + intros Hin. apply in_app_or in Hin. destruct Hin as [Hin|[->|[]]]; [auto|]. apply Hnk. now left.
    + apply NoDup_app_comm_snoc; auto. intros Hin. apply Hnk. now right.
  - intros j Hj E Hn k' Ha' Hb'. assert (Hk' : 0 <= k' < A) by (destruct Hb'; auto).
    apply Hcell0; auto. rewrite Hlow in E by auto. destruct (Z.eqb_spec j k) as [->|].
    + exfalso. apply Hn. right. apply in_or_app. right. now left.
    + apply (f_closed0 j); auto. intros Hin. apply Hn. destruct Hin as [->|Hin]; [now left|].
      right. apply in_or_app. now left.
  - intros k' [<-|Hk'] Hb.
    + rewrite Hlow by lia. rewrite Z.eqb_refl. lia.
    + apply Hcell0; auto. destruct Hb; auto.
  - rewrite app_length. cbn [List.length].
    assert (zeros m2 < zeros m)%nat; [|lia].
    apply filter_length_lt with (x := k).
    + intros j Hj E. apply zrange_In in Hj. rewrite Hlow in E by auto. destruct (j =? k); [lia|auto].
    + apply zrange_In; lia.
    + rewrite Hlow by lia. rewrite Z.eqb_refl. lia.
    + lia.
Qed.

Lemma fill_weaken m S idx D D' : fill m S idx D -> incl D' D -> fill m S idx D'.
Proof. intros F I. destruct F. constructor; auto. Qed.

Lemma visit_ok m S idx :
  fill m S idx [] ->
  exists m' S', visit img c idx (m, A + zlen S) = Ok (m', A + zlen S') /\
    fill m' S' idx [] /\ (forall k, adj idx k -> bgi k -> cell m' k <> 0) /\
    (2 * zeros m' + List.length S' <= 2 * zeros m + List.length S)%nat.
Proof.
  intros F. pose proof size_facts as (Hw & Hh & HA & Hd).
  assert (Hidx : 0 <= idx < A) by (destruct F; apply f_pend0; now left).
  assert (Hw0 : 0 < w) by (unfold A in *; nia).
  pose proof (neighbours idx) as Nb. destruct (neighbours_in idx Hidx) as (N1 & N2 & N3 & N4).
  assert (Q1 : 0 <= idx / w < h) by (split; [apply Z.div_pos; lia|apply Z.div_lt_upper_bound; unfold A in *; lia]).
  pose proof (Z.mod_pos_bound idx w Hw0) as M1.
  unfold visit. fold w h. rewrite divu_ok by lia. cbn [bind].
  rewrite (u32_small (idx / w + 1)), (u32_small (idx mod w + 1)) by lia.
  set (y := idx / w) in *. set (x := idx mod w) in *.
  assert (T : forall (b : bool) k m S D, fill m S idx D -> (b = false -> 0 <= k < A /\ adj idx k) ->
    exists m' S', (if b then Ok (m, A + zlen S) else push_if img c (u32 k) (m, A + zlen S)) = Ok (m', A + zlen S') /\
      fill m' S' idx D /\ (b = false -> fill m' S' idx (k :: D)) /\
      (2 * zeros m' + List.length S' <= 2 * zeros m + List.length S)%nat).
  { clear m S F. intros b k m S D F Hb. destruct b.
    - exists m, S. split; [reflexivity|]. split; [exact F|]. split; [discriminate|lia].
    - destruct (Hb eq_refl) as (Hk & Ha). rewrite u32_small by lia.
      destruct (push_if_ok m S idx D k F Hk Ha) as (m' & S' & E & F' & Hm).
      exists m', S'. split; [exact E|]. split; [|auto].
      eapply fill_weaken; [exact F'|]. intros z Hz; now right. }
  assert (Ext : forall (b : bool) k m S D, fill m S idx D -> (b = false -> fill m S idx (k :: D)) ->
    fill m S idx ((if b then [] else [k]) ++ D)).
  { intros b k m0 S0 D F0 F1. destruct b; [exact F0|exact (F1 eq_refl)]. }
  destruct (T (y =? 0) (idx - w) m S [] F) as (m1 & S1 & E1 & F1 & G1 & L1); [intros Eb; apply N1; lia|].
  rewrite E1. cbn [bind]. apply (Ext _ _ _ _ _ F1) in G1.
  match type of G1 with fill _ _ _ ?D => destruct (T (y + 1 =? h) (idx + w) m1 S1 D G1) as (m2 & S2 & E2 & F2 & G2 & L2) end; [intros Eb; apply N2; lia|].
  rewrite E2. cbn [bind]. apply (Ext _ _ _ _ _ F2) in G2.
  match type of G2 with fill _ _ _ ?D => destruct (T (x =? 0) (idx - 1) m2 S2 D G2) as (m3 & S3 & E3 & F3 & G3 & L3) end; [intros Eb; apply N3; lia|].
  rewrite E3. cbn [bind]. apply (Ext _ _ _ _ _ F3) in G3.
  match type of G3 with fill _ _ _ ?D => destruct (T (x + 1 =? w) (idx + 1) m3 S3 D G3) as (m4 & S4 & E4 & F4 & G4 & L4) end; [intros Eb; apply N4; lia|].
  rewrite E4. apply (Ext _ _ _ _ _ F4) in G4.
  exists m4, S4. split; [reflexivity|]. split; [eapply fill_weaken; [exact F4|intros z []]|].
  split; [|lia].
  intros k Ha Hb. destruct G4. apply f_done0; [|exact Hb].
  assert (Hk : 0 <= k < A) by (destruct Hb; auto).
  rewrite !in_app_iff. destruct (Nb k Hidx Hk Ha) as [(C & ->)|[(C & ->)|[(C & ->)|(C & ->)]]].
  - right; right; right. left. destruct (Z.eqb_spec y 0); [contradiction|now left].
  - right; right; left. destruct (Z.eqb_spec (y + 1) h); [contradiction|now left].
  - right; left. destruct (Z.eqb_spec x 0); [contradiction|now left].
  - left. destruct (Z.eqb_spec (x + 1) w); [contradiction|now left].
Qed.

Lemma flood_ok m :
  zlen m = len -> (forall j, 0 <= j < A -> cell m j = L j) ->
  exists m', flood img c i m = Ok m' /\ zlen m' = len /\
    (forall j, 0 <= j < A -> L j <> 0 -> cell m' j = L j) /\
    (forall j, 0 <= j < A -> L j = 0 -> (cell m' j = c /\ ilinked i j) \/ (cell m' j = 0 /\ ~ ilinked i j)).
Proof.
  intros Hm HL. pose proof size_facts as (Hw & Hh & HA & Hd). unfold flood.
  assert (Hi' : 0 <= i < A) by (destruct Hi; auto).
  destruct (wr_cell m i c) as (m0 & -> & Hl0 & Hc0); [lia|]. cbn [bind].
  rewrite area_wf by exact Hwf. fold w h A.
  assert (F0 : fill m0 [] i []).
  { constructor.
    - lia.
    - intros j Hj Hn. rewrite Hc0 by lia. destruct (Z.eqb_spec j i); [congruence|auto].
    - intros j Hj Hn. rewrite Hc0 by lia. destruct (Z.eqb_spec j i); [auto|]. left. now rewrite HL.
    - intros j Hj E. rewrite Hc0 in E by lia. destruct (Z.eqb_spec j i) as [->|]; [now constructor|].
      rewrite HL in E by auto. specialize (HLc j Hj). lia.
    - rewrite Hc0 by lia. now rewrite Z.eqb_refl.
    - intros t Ht. cbn [List.length] in Ht. lia.
    - intros j [<-|[]]. split; [auto|]. rewrite Hc0 by lia. now rewrite Z.eqb_refl.
    - constructor; [intros []|constructor].
    - intros j Hj E Hn. rewrite Hc0 in E by lia. destruct (Z.eqb_spec j i) as [->|].
      + exfalso; apply Hn; now left.
      + rewrite HL in E by auto. specialize (HLc j Hj). lia.
    - intros k []. }
  match goal with |- exists m', loop ?n0 ?b0 ?s0 = _ /\ _ => edestruct (@loop_total (Z * list Z * Z) (list Z) b0) with
    (I := fun '((idx, m, sp) : Z * list Z * Z) => exists S, sp = A + zlen S /\ fill m S idx [])
    (m := fun '((idx, m, sp) : Z * list Z * Z) => (2 * zeros m + Z.to_nat (sp - A))%nat)
    (Q := fun m' => exists idx, fill m' [] idx [] /\ forall k, adj idx k -> bgi k -> cell m' k <> 0)
    (fuel := n0) (s := s0) as (m' & E & idx & F & Hdone) end.
  4: { exists m'. split; [exact E|].
    destruct F. split; [exact f_len0|]. split; [exact f_old0|].
    assert (Hall : forall j, ilinked i j -> cell m' j = c).
    { intros j Hj. assert (X : ilinked i i) by (constructor; exact Hi).
      assert (G : forall a b, ilinked a b -> a = i -> cell m' b = c).
      { induction 1 as [b Hb|a b k Hab IH Ha Hk]; intros ->; [exact f_i0|].
        specialize (IH eq_refl). assert (Hb : bgi b) by (eapply ilinked_bg_r; exact Hab).
        assert (Hb' : 0 <= b < A) by (destruct Hb; auto).
        assert (Hk' : 0 <= k < A) by (destruct Hk; auto).
        assert (Hn : cell m' k <> 0).
        { destruct (Z.eq_dec b idx) as [->|Hne]; [now apply Hdone|].
          apply (f_closed0 b); auto. intros [E'|[]]. congruence. }
        destruct (Z.eq_dec (L k) 0) as [E0|E0].
        - destruct (f_new0 k Hk' E0); congruence.
        - exfalso. pose proof (HLclosed k b Hk' E0 (adj_sym _ _ Ha) Hb) as HLb.
          rewrite (f_old0 b Hb' HLb) in IH. specialize (HLc b Hb'). lia. }
      exact (G i j Hj eq_refl). }
    intros j Hj HLj. destruct (f_new0 j Hj HLj) as [E0|E0].
    - right. split; [exact E0|]. intros Hln. apply Hall in Hln. lia.
    - left. split; [exact E0|]. now apply f_link0. }
  2: { exists []. split; [unfold zlen; cbn [List.length]; lia|exact F0]. }
  2: { cbv beta iota. pose proof (zeros_le m0). lia. }
  intros ((idx & mm) & sp) (S & -> & F).
  destruct (visit_ok mm S idx F) as (m1 & S1 & E1 & F1 & D1 & L1). rewrite E1. cbn [bind].
  destruct (Z.eqb_spec (A + zlen S1) A) as [E0|E0].
  - exists idx. assert (S1 = []) by (destruct S1; [reflexivity|unfold zlen in E0; cbn [List.length] in E0; lia]).
    subst S1. split; assumption.
  - destruct (exists_last (l := S1)) as (S2 & idx' & ->); [intros ->; apply E0; unfold zlen; cbn [List.length]; lia|].
    assert (Hz : zlen (S2 ++ [idx']) = zlen S2 + 1) by (unfold zlen; rewrite app_length; cbn [List.length]; lia).
    rewrite Hz in *. destruct F1.
    assert (Hcount : zlen S2 + 2 <= A).
    { assert (I : incl (idx :: S2 ++ [idx']) (zrange A)).
      { intros j Hj; apply zrange_In. now apply f_pend0. }
      pose proof (NoDup_incl_length f_nodup0 I) as Hl. rewrite zrange_length in Hl. cbn [List.length] in Hl.
      rewrite app_length in Hl. cbn [List.length] in Hl. unfold zlen. lia. }
    replace (A + (zlen S2 + 1) - 1) with (A + zlen S2) by lia.
    rewrite rd_cell by (unfold zlen in *; lia). cbn [bind].
    assert (Ec : cell m1 (A + zlen S2) = idx').
    { unfold zlen. rewrite f_stack0 by (rewrite app_length; cbn [List.length]; lia).
      rewrite app_nth2 by lia. now rewrite Nat.sub_diag. }
    rewrite Ec. split.
    2: { rewrite app_length in L1. cbn [List.length] in L1. unfold zlen. lia. }
    exists S2. split; [reflexivity|].
    apply NoDup_cons_iff in f_nodup0. destruct f_nodup0 as (Hn1 & Hn2).
    assert (Hin : forall j, In j (S2 ++ [idx']) <-> In j (idx' :: S2)).
    { intros j. rewrite in_app_iff. cbn [In]. tauto. }
    constructor; auto.
    + intros t Ht. rewrite f_stack0 by (rewrite app_length; lia). now rewrite app_nth1 by lia.
    + intros j Hj. apply f_pend0. right. now apply Hin.
    + apply NoDup_rev in Hn2. rewrite rev_app_distr in Hn2. cbn [rev app] in Hn2.
      apply NoDup_cons_iff in Hn2. destruct Hn2 as (Hn3 & Hn4). constructor; [now rewrite in_rev|].
      rewrite <- (rev_involutive S2). now apply NoDup_rev.
    + intros j Hj E Hn k Ha Hk. destruct (Z.eq_dec j idx) as [->|Hne]; [now apply D1|].
      apply (f_closed0 j); auto. intros [E'|Hin']; [congruence|]. apply Hn. now apply Hin.
Qed.
End One.

Record labelled (i c len : Z) (first : Z -> Z) (m : list Z) : Prop := {
  l_len : zlen m = len;
  l_range : forall j, 0 <= j < A -> cell m j = 0 \/ (bgi j /\ 1 <= cell m j < c);
  l_closed : forall j k, 0 <= j < A -> cell m j <> 0 -> adj j k -> bgi k -> cell m k <> 0;
  l_done : forall j, 0 <= j < i -> bgi j -> cell m j <> 0;
  l_eq : forall j k, 0 <= j < A -> 0 <= k < A -> cell m j <> 0 -> cell m k <> 0 ->
    (cell m j = cell m k <-> ilinked j k);
  l_first : forall v, 1 <= v < c -> 0 <= first v < i /\ bgi (first v) /\ cell m (first v) = v /\
    forall j, 0 <= j < A -> cell m j = v -> first v <= j;
  l_order : forall v v', 1 <= v -> v < v' -> v' < c -> first v < first v';
  l_count : 1 <= c <= i + 1 }.

Lemma closed_linked (m : list Z) :
  (forall j k, 0 <= j < A -> cell m j <> 0 -> adj j k -> bgi k -> cell m k <> 0) ->
  forall j k, ilinked j k -> cell m j <> 0 -> cell m k <> 0.
Proof.
  intros Hcl j k H. induction H as [j Hj|i j k H IH Ha Hk]; intros Hn; auto.
  apply (Hcl j k); auto. apply ilinked_bg_r in H. destruct H; auto.
Qed.

Lemma label_zones_ok m len :
  A < 2147483648 -> zlen m = len -> 2 * A <= len -> (forall j, 0 <= j < A -> cell m j = 0) ->
  exists m' c first, label_zones img m = Ok (m', c) /\ labelled A c len first m'.
Proof.
  intros HA31 Hl Hlen Hz. pose proof size_facts as (Hw & Hh & HA & Hd).
  assert (HA0 : 0 <= A) by (unfold A; nia).
  unfold label_zones. rewrite area_wf by exact Hwf. fold w h A.
  for_up_with (fun (i : Z) '((m, c) : list Z * Z) => exists first, labelled i c len first m).
  2: { exists (fun _ => 0). constructor; auto; try lia; intros; try (exfalso; lia).
       all: rewrite Hz in *; auto; try (exfalso; lia). }
  2: { destruct st as (m' & c), Hloop as (first & G). exists m', c, first. split; [reflexivity|].
       replace (0 + Z.of_nat (Z.to_nat A)) with A in G by lia. exact G. }
  intros i (mm & c) Hi (first & F). assert (Hi' : 0 <= i < A) by lia. clear Hi.
  destruct F. rewrite rd_cell by lia. cbn [bind].
  destruct (Z.eqb_spec (cell mm i) 0) as [E0|E0]; cbn [negb].
  2: { eexists; split; [reflexivity|]. exists first. constructor; auto; try lia.
       - intros j Hj Hb. destruct (Z.eq_dec j i) as [->|]; [auto|]. apply l_done0; auto; lia.
       - intros v Hv. destruct (l_first0 v Hv) as (H1 & H2). split; [lia|exact H2]. }
  rewrite rd_cell by lia. cbn [bind]. unfold cell at 1.
  destruct (is_pix_letter (nth (Z.to_nat i) (idata img) 0)) eqn:Ep.
  { eexists; split; [reflexivity|]. exists first. constructor; auto; try lia.
    - intros j Hj Hb. destruct (Z.eq_dec j i) as [->|].
      + destruct Hb as (_ & Hb). congruence.
      + apply l_done0; auto; lia.
    - intros v Hv. destruct (l_first0 v Hv) as (H1 & H2). split; [lia|exact H2]. }
  assert (Hbi : bgi i) by (split; assumption).
  destruct (flood_ok c i (cell mm) len ltac:(lia) ltac:(lia) Hbi E0) with (m := mm)
    as (m' & E & Hl' & Hold & Hnew).
  { intros j Hj. destruct (l_range0 j Hj); lia. }
  { exact l_closed0. }
  { exact l_len0. }
  { auto. }
  rewrite E. cbn [bind]. rewrite u32_small by lia.
  eexists; split; [reflexivity|]. exists (fun v => if v =? c then i else first v).
  assert (Hcases : forall j, 0 <= j < A ->
    (cell mm j <> 0 /\ cell m' j = cell mm j /\ 1 <= cell mm j < c /\ bgi j) \/
    (cell mm j = 0 /\ cell m' j = c /\ ilinked i j) \/
    (cell mm j = 0 /\ cell m' j = 0 /\ ~ ilinked i j)).
  { intros j Hj. destruct (Z.eq_dec (cell mm j) 0) as [Z0|Z0].
    - right. destruct (Hnew j Hj Z0) as [(? & ?)|(? & ?)]; [left|right]; auto.
    - left. split; [auto|]. split; [now apply Hold|]. destruct (l_range0 j Hj) as [?|(? & ?)]; [lia|auto]. }
  pose proof (closed_linked mm l_closed0) as Hcl.
  constructor.
  - exact Hl'.
  - intros j Hj. destruct (Hcases j Hj) as [(H1 & H2 & H3 & H4)|[(H1 & H2 & H3)|(H1 & H2 & H3)]].
    + right. split; [auto|lia].
    + right. split; [now apply ilinked_bg_r in H3|lia].
    + now left.
  - intros j k Hj Hn Ha Hk. assert (Hk' : 0 <= k < A) by (destruct Hk; auto).
    destruct (Hcases j Hj) as [(H1 & H2 & H3 & H4)|[(H1 & H2 & H3)|(H1 & H2 & H3)]]; [| |congruence].
    + rewrite Hold; auto; apply (l_closed0 j); auto.
    + destruct (Hcases k Hk') as [(K1 & K2 & K3 & K4)|[(K1 & K2 & K3)|(K1 & K2 & K3)]]; try lia.
      exfalso. apply K3. eapply ilinked_next; eauto.
  - intros j Hj Hb. assert (Hj' : 0 <= j < A) by lia.
    destruct (Z.eq_dec j i) as [->|Hne].
    + destruct (Hcases i Hi') as [(K1 & K2 & K3 & K4)|[(K1 & K2 & K3)|(K1 & K2 & K3)]]; try lia.
      exfalso. apply K3. now constructor.
    + rewrite Hold; auto; apply l_done0; auto; lia.
  - intros j k Hj Hk Hnj Hnk.
    destruct (Hcases j Hj) as [(H1 & H2 & H3 & H4)|[(H1 & H2 & H3)|(H1 & H2 & H3)]]; [| |congruence];
    (destruct (Hcases k Hk) as [(K1 & K2 & K3 & K4)|[(K1 & K2 & K3)|(K1 & K2 & K3)]]; [| |congruence]).
    + rewrite H2, K2. now apply l_eq0.
    + split; [lia|]. intros Hln. exfalso. apply (Hcl j k Hln); auto.
    + split; [lia|]. intros Hln. exfalso. apply (Hcl k j (ilinked_sym _ _ Hln)); auto.
    + split; [|congruence]. intros _. eapply ilinked_trans; [apply ilinked_sym; exact H3|exact K3].
  - intros v Hv. destruct (Z.eqb_spec v c) as [->|Hne].
    + split; [lia|]. split; [exact Hbi|]. split.
      { destruct (Hcases i Hi') as [(K1 & K2 & K3 & K4)|[(K1 & K2 & K3)|(K1 & K2 & K3)]]; try lia.
        exfalso. apply K3. now constructor. }
      intros j Hj Ej. destruct (Hcases j Hj) as [(H1 & H2 & H3 & H4)|[(H1 & H2 & H3)|(H1 & H2 & H3)]]; try lia.
      destruct (Z.le_gt_cases i j); [auto|]. exfalso. apply (l_done0 j); auto; [lia|].
      now apply ilinked_bg_r in H3.
    + destruct (l_first0 v ltac:(lia)) as (H1 & H2 & H3 & H4). split; [lia|]. split; [auto|]. split.
      { rewrite Hold; [exact H3|destruct H2; auto|lia]. }
      intros j Hj Ej. destruct (Hcases j Hj) as [(K1 & K2 & K3 & K4)|[(K1 & K2 & K3)|(K1 & K2 & K3)]]. { apply H4; [auto|lia]. }
      { lia. } { lia. }
  - intros v v' Hv Hvv Hv'. destruct (Z.eqb_spec v c); [lia|]. destruct (Z.eqb_spec v' c) as [->|].
    + apply l_first0; lia.
    + apply l_order0; lia.
  - lia.
Qed.

(** From indexes to coordinates. *)
Definition lab_of (m : list Z) (x y : Z) : Z :=
  if (0 <=? x) && (x <? w) && (0 <=? y) && (y <? h) then cell m (y * w + x) else 0.

Definition inside x y := 0 <= x < w /\ 0 <= y < h.

Lemma paper_inside x y : paper img x y = true -> inside x y.
Proof.
  unfold paper, inside. intros H. destruct (Z_lt_dec x 0), (Z_lt_dec y 0), (Z_le_dec w x), (Z_le_dec h y);
    try (rewrite pix_outside in H by (fold w h; lia); discriminate). lia.
Qed.

Lemma idx_range x y : inside x y -> 0 <= y * w + x < A.
Proof. intros (Hx & Hy). unfold A. nia. Qed.

Lemma idx_divmod x y : inside x y -> (y * w + x) / w = y /\ (y * w + x) mod w = x.
Proof.
  intros (Hx & Hy). split.
  - rewrite Z.div_add_l by lia. rewrite Z.div_small; lia.
  - rewrite Z.add_comm, Z.mod_add by lia. apply Z.mod_small; lia.
Qed.

Lemma idx_of j : 0 <= j < A -> inside (j mod w) (j / w) /\ j = j / w * w + j mod w.
Proof.
  intros Hj. assert (Hw0 : 0 < w) by (pose proof size_facts; unfold A in *; nia).
  pose proof (Z.div_mod j w ltac:(lia)). pose proof (Z.mod_pos_bound j w Hw0).
  split; [split; [lia|]|lia].
  split; [apply Z.div_pos; lia|apply Z.div_lt_upper_bound; unfold A in *; lia].
Qed.

Lemma paper_bgi x y : inside x y -> (paper img x y = true <-> bgi (y * w + x)).
Proof.
  intros Hin. unfold paper. rewrite pix_inside by (auto; apply Hin). unfold pget, bgi, is_pix_letter. fold w.
  rewrite negb_true_iff. pose proof (idx_range x y Hin). tauto.
Qed.

Lemma touching_adj x y x' y' : inside x y -> inside x' y' ->
  (touching (x, y) (x', y') <-> adj (y * w + x) (y' * w + x')).
Proof.
  intros H1 H2. destruct (idx_divmod x y H1) as (E1 & E2). destruct (idx_divmod x' y' H2) as (E3 & E4).
  unfold touching, adj. rewrite E1, E2, E3, E4. reflexivity.
Qed.

Lemma linked_paper p q : linked img p q -> paper img (fst p) (snd p) = true /\ paper img (fst q) (snd q) = true.
Proof. induction 1 as [x y H|p q x y H IH Ht Hp]; cbn [fst snd]; tauto. Qed.

Lemma linked_ilinked p q : linked img p q ->
  ilinked (snd p * w + fst p) (snd q * w + fst q).
Proof.
  induction 1 as [x y H|p q x y H IH Ht Hp]; cbn [fst snd] in *.
  - constructor. apply paper_bgi; auto. now apply paper_inside.
  - assert (Hq := proj2 (linked_paper _ _ H)). destruct q as (x0 & y0). cbn [fst snd] in *.
    eapply ilinked_next; [exact IH| |].
    + apply (touching_adj x0 y0 x y); [apply paper_inside; exact Hq|apply paper_inside; exact Hp|exact Ht].
    + apply (paper_bgi x y); [apply paper_inside; exact Hp|exact Hp].
Qed.

Lemma bgi_paper j : bgi j -> paper img (j mod w) (j / w) = true.
Proof.
  intros H. assert (H' := H). destruct H' as (Hj & _). destruct (idx_of j Hj) as (Hin & E).
  apply paper_bgi; [exact Hin|]. now rewrite <- E.
Qed.

Lemma ilinked_linked j k : ilinked j k -> linked img (j mod w, j / w) (k mod w, k / w).
Proof.
  induction 1 as [j Hj|i j k H IH Ha Hk].
  - constructor. now apply bgi_paper.
  - eapply linked_next; [exact IH| |now apply bgi_paper].
    exact Ha.
Qed.

Lemma numbering_of c len first m :
  labelled A c len first m -> zone_numbering img (c - 1) (lab_of m).
Proof.
  intros F. destruct F. pose proof size_facts as (Hw & Hh & HA & Hd).
  assert (Hin : forall x y, inside x y -> lab_of m x y = cell m (y * w + x)).
  { intros x y (Hx & Hy). unfold lab_of. now replace ((0 <=? x) && (x <? w) && (0 <=? y) && (y <? h)) with true by lia. }
  assert (Hpap : forall x y, paper img x y = true ->
    lab_of m x y = cell m (y * w + x) /\ 0 <= y * w + x < A /\ bgi (y * w + x) /\ cell m (y * w + x) <> 0).
  { intros x y Hp. pose proof (paper_inside x y Hp) as Hi. pose proof (idx_range x y Hi) as Hr.
    assert (Hb : bgi (y * w + x)) by (apply paper_bgi; auto).
    split; [auto|]. split; [auto|]. split; [auto|]. now apply l_done0. }
  split; [|split; [|split]].
  - intros x y Hp. destruct (Hpap x y Hp) as (-> & Hr & Hb & Hn). destruct (l_range0 _ Hr); [lia|]. lia.
  - intros x y Hp. unfold lab_of. destruct ((0 <=? x) && (x <? w) && (0 <=? y) && (y <? h)) eqn:E; [|reflexivity].
    assert (Hi : inside x y) by (unfold inside; lia). pose proof (idx_range x y Hi) as Hr.
    destruct (l_range0 _ Hr) as [|(Hb & _)]; [auto|]. apply paper_bgi in Hb; auto. congruence.
  - intros x y x' y' Hp Hp'.
    destruct (Hpap x y Hp) as (-> & Hr & Hb & Hn). destruct (Hpap x' y' Hp') as (-> & Hr' & Hb' & Hn').
    rewrite l_eq0 by auto. split.
    + intros Hl. apply ilinked_linked in Hl.
      destruct (idx_divmod x y (paper_inside x y Hp)) as (E1 & E2).
      destruct (idx_divmod x' y' (paper_inside x' y' Hp')) as (E3 & E4).
      now rewrite E1, E2, E3, E4 in Hl.
    + intros Hl. exact (linked_ilinked _ _ Hl).
  - exists (fun v => (first v mod w, first v / w)). split.
    + intros v Hv. destruct (l_first0 v ltac:(lia)) as (H1 & H2 & H3 & H4). cbn [fst snd].
      destruct (idx_of (first v) H1) as (Hi & E).
      split; [now apply bgi_paper|]. split; [rewrite Hin by auto; rewrite <- E; exact H3|].
      intros x y Hp Hl. unfold rank. cbn [fst snd]. fold w. rewrite <- E.
      destruct (Hpap x y Hp) as (E' & Hr & _). apply H4; auto. congruence.
    + intros v v' H1 H2 H3. unfold rank. cbn [fst snd]. fold w.
      destruct (l_first0 v ltac:(lia)) as (F1 & _). destruct (l_first0 v' ltac:(lia)) as (F2 & _).
      rewrite <- (proj2 (idx_of _ F1)), <- (proj2 (idx_of _ F2)). apply l_order0; lia.
Qed.
End Flood.
