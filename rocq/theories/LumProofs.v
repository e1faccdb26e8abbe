(** Proofs about the luminance. *)
From Verif Require Import Base BaseProofs SortModel ImageModel ImageSpec ImageProofs PnmModel PnmSpec PnmProofs BoxModel StratModel StratSpec StratProofs StratFeatures2 ShowModel LearnModel CopySpec CopyProofs LumSpec.

Lemma luma_range r g b : 0 <= luma r g b < 256.
Proof. unfold luma. apply Z.mod_pos_bound. lia. Qed.
(** A file gives the luminances of its pixels, or the luminance does not matter. *)
Lemma load_shape buf :
  (exists w h hdr payload cs, header_text 54 w h hdr /\ buf = hdr ++ payload /\ Z.of_nat (List.length payload) = 3 * (w * h) /\
     cs = map (fun k => luma (nth (Z.to_nat (Z.of_nat (List.length hdr) + 3 * k)) buf 0) (nth (Z.to_nat (Z.of_nat (List.length hdr) + 3 * k + 1)) buf 0) (nth (Z.to_nat (Z.of_nat (List.length hdr) + 3 * k + 2)) buf 0)) (zrange (w * h)) /\
     forall lum, image_of_bytes buf lum = Ok (mkimage w h (map (fun c => threshold c lum) cs))) \/
  (forall lum lum', image_of_bytes buf lum' = image_of_bytes buf lum) /\ (coloured buf -> forall lum a, image_of_bytes buf lum <> Ok a).
Proof.
  unfold image_of_bytes. cbv zeta. destruct (parse_header_sound buf) as [->|(t & w & h & m & hdr & payload & Eb & Hh & H9 & ->)].
  { right. split; [reflexivity|discriminate]. }
  cbn [bind h_width h_height h_type h_end].
  assert (T : t <> 54 -> ~ coloured buf).
  { intros Nt (w' & h' & hdr' & pl' & Hh' & Eb'). assert (9 <= Z.of_nat (List.length (hdr' ++ pl'))) by (rewrite <- Eb'; exact H9).
    destruct (parse_header_complete _ _ _ _ _ Hh' H) as (m' & E'). rewrite <- Eb' in E'.
    assert (9 <= Z.of_nat (List.length (hdr ++ payload))) by (rewrite <- Eb; exact H9). destruct (parse_header_complete _ _ _ _ _ Hh H0) as (m2 & E2). rewrite <- Eb in E2. rewrite E2 in E'. injection E' as -> _ _ _. now apply Nt. }
  destruct (u64 (w * h) =? 0) eqn:E0; [right; split; [reflexivity|discriminate]|]. destruct (negb (u64 (w * h) =? u32 (u64 (w * h)))) eqn:E1; [right; split; [reflexivity|discriminate]|].
  destruct (t =? 54) eqn:Et.
  - apply Z.eqb_eq in Et. subst t. destruct (negb (Z.of_nat (List.length buf) - Z.of_nat (List.length hdr) =? u64 (u64 (w * h) * 3))) eqn:E2; [right; split; [reflexivity|discriminate]|left].
    apply negb_false_iff, Z.eqb_eq in E1, E2. apply Z.eqb_neq in E0.
    assert (W : 0 <= w < 4294967296 /\ 0 <= h < 4294967296) by (pose proof (header_w_h _ _ _ _ Hh); lia).
    assert (A : u64 (w * h) = w * h) by (unfold u64; apply Z.mod_small; nia). rewrite A in *. assert (A2 : w * h < 4294967296) by (rewrite E1; unfold u32; apply Z.mod_pos_bound; lia).
    assert (A3 : u64 (w * h * 3) = w * h * 3) by (unfold u64; apply Z.mod_small; nia). rewrite A3 in *.
    assert (Lp : Z.of_nat (List.length payload) = 3 * (w * h)) by (rewrite Eb, app_length in E2; lia).
    exists w, h, hdr, payload. eexists. split; [exact Hh|]. split; [exact Eb|]. split; [exact Lp|]. split; [reflexivity|]. intros lum.
    rewrite decode_p6_ok by lia. cbn [bind]. rewrite map_map. reflexivity.
  - apply Z.eqb_neq in Et. right. split; [reflexivity|]. intros C. exfalso. now apply (T Et).
Qed.
Lemma threshold_less c lum lum' : lum <= lum' -> threshold c lum' = threshold c lum \/ (threshold c lum = 120 /\ threshold c lum' = 45).
Proof. intros H. unfold threshold. destruct (Z.ltb_spec c lum), (Z.ltb_spec c lum'); try lia; auto. Qed.
Theorem luminance_less buf lum lum' : lum <= lum' ->
  (exists a b, image_of_bytes buf lum = Ok a /\ image_of_bytes buf lum' = Ok b /\ less_ink a b) \/
  ((forall a, image_of_bytes buf lum <> Ok a) /\ image_of_bytes buf lum' = image_of_bytes buf lum).
Proof.
  intros L. destruct (load_shape buf) as [(w & h & hdr & pl & cs & _ & _ & _ & _ & E)|(E & _)].
  - left. rewrite !E. eexists. eexists. split; [reflexivity|]. split; [reflexivity|]. split; [reflexivity|]. split; [reflexivity|]. cbn [idata].
    clear E. induction cs as [|c cs IH]; cbn [map]; constructor; [|exact IH]. now apply threshold_less.
  - rewrite (E lum lum'). destruct (image_of_bytes buf lum) as [a| | |] eqn:Ea; [left|right; split; [discriminate|reflexivity]..].
    exists a, a. split; [reflexivity|]. split; [reflexivity|]. split; [reflexivity|]. split; [reflexivity|]. clear. induction (idata a); constructor; auto.
Qed.
Theorem luminance_clamped buf lum : image_of_bytes buf (clamp lum) = image_of_bytes buf lum.
Proof.
  destruct (load_shape buf) as [(w & h & hdr & pl & cs & _ & _ & _ & -> & E)|(E & _)]; [|apply E]. rewrite !E. do 2 f_equal. rewrite !map_map. apply map_ext. intros k.
  match goal with |- threshold ?c _ = _ => pose proof (luma_range (nth (Z.to_nat (Z.of_nat (List.length hdr) + 3 * k)) buf 0) (nth (Z.to_nat (Z.of_nat (List.length hdr) + 3 * k + 1)) buf 0) (nth (Z.to_nat (Z.of_nat (List.length hdr) + 3 * k + 2)) buf 0)) as R; revert R; generalize c end.
  intros c R. unfold threshold, clamp. destruct (Z.ltb_spec c (Z.max 0 (Z.min 256 lum))), (Z.ltb_spec c lum); lia.
Qed.
Theorem luminance_extremes buf lum a : coloured buf -> image_of_bytes buf lum = Ok a ->
  (lum <= 0 -> Forall (eq 120) (idata a)) /\ (256 <= lum -> Forall (eq 45) (idata a)).
Proof.
  intros C H. destruct (load_shape buf) as [(w & h & hdr & pl & cs & _ & _ & _ & -> & E)|(_ & E)]; [|exfalso; exact (E C lum a H)].
  rewrite E in H. injection H as <-. cbn [idata]. rewrite map_map. split; intros L; apply Forall_map, Forall_forall; intros k _; cbv beta;
    match goal with |- _ = threshold (luma ?r ?g ?b) _ => pose proof (luma_range r g b) as R; unfold threshold; destruct (Z.ltb_spec (luma r g b) lum); lia end.
Qed.
Theorem luminance_uncoloured buf lum lum' : ~ coloured buf -> image_of_bytes buf lum' = image_of_bytes buf lum.
Proof.
  intros N. destruct (load_shape buf) as [(w & h & hdr & pl & cs & Hh & Eb & _)|(E & _)]; [|apply E]. exfalso. apply N. exists w, h, hdr, pl. auto.
Qed.
Theorem luminance_same w h hdr payload lum lum' : header_text 54 w h hdr -> bytes payload -> 0 < w * h < 4294967296 -> Z.of_nat (List.length payload) = 3 * (w * h) -> lum <= lum' ->
  (image_of_bytes (hdr ++ payload) lum' = image_of_bytes (hdr ++ payload) lum <-> forall c, has_luminance payload c -> ~ lum <= c < lum').
Proof.
  intros Hh B R Lp L. set (buf := hdr ++ payload). assert (C : coloured buf) by (exists w, h, hdr, payload; auto).
  destruct (proj1 (p6_law w h hdr payload lum Hh B R) Lp) as (a & Ea & _).
  destruct (load_shape buf) as [(w' & h' & hdr' & pl' & cs & Hh' & Eb & Lp' & Ec & E)|(_ & E)]; [|exfalso; exact (E C lum a Ea)].
  assert (H9 : 9 <= Z.of_nat (List.length buf)).
  { unfold buf. rewrite app_length. pose proof (header_p6_len w h 54 hdr ltac:(lia) ltac:(lia) Hh). lia. }
  destruct (parse_header_complete _ _ _ _ _ Hh H9) as (m & P). rewrite Eb in H9. destruct (parse_header_complete _ _ _ _ _ Hh' H9) as (m' & P'). rewrite <- Eb in P'. fold buf in P. rewrite P in P'. injection P' as <- <- _ El.
  assert (Nth : forall k j, 0 <= k < w * h -> 0 <= j < 3 -> nth (Z.to_nat (Z.of_nat (List.length hdr') + 3 * k + j)) buf 0 = nth (3 * Z.to_nat k + Z.to_nat j)%nat payload 0).
  { intros k j Hk Hj. unfold buf. rewrite app_nth2 by lia. f_equal. lia. }
  assert (Some3 : forall k j, 0 <= k < w * h -> (j < 3)%nat -> nth_error payload (3 * Z.to_nat k + j) = Some (nth (3 * Z.to_nat k + j) payload 0)) by (intros k j Hk Hj; apply nth_error_nth'; lia).
  assert (Lm : forall k, 0 <= k < w * h -> luma (nth (Z.to_nat (Z.of_nat (List.length hdr') + 3 * k)) buf 0) (nth (Z.to_nat (Z.of_nat (List.length hdr') + 3 * k + 1)) buf 0) (nth (Z.to_nat (Z.of_nat (List.length hdr') + 3 * k + 2)) buf 0) =
      luminance_of (nth (3 * Z.to_nat k) payload 0) (nth (3 * Z.to_nat k + 1) payload 0) (nth (3 * Z.to_nat k + 2) payload 0)).
  { intros k Hk. rewrite <- (Z.add_0_r (Z.of_nat (List.length hdr') + 3 * k)) at 1. rewrite !Nth by lia. change (Z.to_nat 0) with 0%nat. change (Z.to_nat 1) with 1%nat. change (Z.to_nat 2) with 2%nat. rewrite Nat.add_0_r.
    assert (By : forall i, 0 <= nth i payload 0 < 256) by (intros i; destruct (nth_in_or_default i payload 0) as [H| ->]; [exact (proj1 (Forall_forall _ _) B _ H)|lia]). apply luma_bytes; apply By. }
  rewrite !E. split.
  - intros H c (k & r & g & b & K0 & K1 & K2 & ->) Hc. injection H as H.
    assert (Hk : (k < Z.to_nat (w * h))%nat) by (assert (3 * k < List.length payload)%nat by (apply nth_error_Some; congruence); lia).
    rewrite Ec, !map_map in H. pose proof (ext_in_map H (Z.of_nat k) (proj2 (zrange_In (w * h) (Z.of_nat k)) ltac:(lia))) as F. cbv beta in F.
    rewrite Lm in F by lia. rewrite Nat2Z.id in F. rewrite !(nth_error_nth _ _ 0 K0), !(nth_error_nth _ _ 0 K1), !(nth_error_nth _ _ 0 K2) in F.
    unfold threshold in F. destruct (Z.ltb_spec (luminance_of r g b) lum), (Z.ltb_spec (luminance_of r g b) lum'); lia.
  - intros H. do 2 f_equal. rewrite Ec, !map_map. apply map_ext_in. intros k Hk. apply zrange_In in Hk. cbv beta. rewrite Lm by exact Hk.
    pose proof (Some3 k 0%nat Hk ltac:(lia)) as S0. rewrite Nat.add_0_r in S0.
    specialize (H _ (ex_intro _ (Z.to_nat k) (ex_intro _ _ (ex_intro _ _ (ex_intro _ _ (conj S0 (conj (Some3 k 1%nat Hk ltac:(lia)) (conj (Some3 k 2%nat Hk ltac:(lia)) eq_refl)))))))).
    unfold threshold. destruct (Z.ltb_spec (luminance_of (nth (3 * Z.to_nat k) payload 0) (nth (3 * Z.to_nat k + 1) payload 0) (nth (3 * Z.to_nat k + 2) payload 0)) lum'), (Z.ltb_spec (luminance_of (nth (3 * Z.to_nat k) payload 0) (nth (3 * Z.to_nat k + 1) payload 0) (nth (3 * Z.to_nat k + 2) payload 0)) lum); try reflexivity; exfalso; apply H; lia.
Qed.

(** * The ink *)
Lemma less_pixel a b x y : less_ink a b -> ink b x y = true -> ink a x y = true.
Proof.
  intros (Ew & Eh & F). unfold ink, pix. rewrite Ew, Eh. destruct (_ && _); [|auto]. set (k := Z.to_nat _). clearbody k. revert k. induction F as [|p q l l' H F IH]; intros [|k]; cbn [nth_error]; auto.
  destruct H as [->|(-> & ->)]; [auto|discriminate].
Qed.
Lemma less_length (R : Z -> Z -> Prop) l l' : Forall2 R l l' -> List.length l = List.length l'.
Proof. induction 1; cbn [List.length]; congruence. Qed.
Theorem less_density a b : less_ink a b -> measurable a (iw a * ih a) -> exists v v', density a = Ok v /\ density b = Ok v' /\ v' <= v.
Proof.
  intros L M. destruct (density_ok a M) as (v & Ev & _ & V). destruct L as (Ew & Eh & F). pose proof (conj Ew (conj Eh F)) as L. fold (less_ink a b) in L.
  assert (Mb : measurable b (iw b * ih b)).
  { destruct M as ((W1 & W2 & W3 & W4) & M2 & M3 & M4). unfold measurable, wf_image. rewrite Ew, Eh, <- (less_length _ _ _ F). auto. }
  destruct (density_ok b Mb) as (v' & Ev' & _ & V'). exists v, v'. split; [exact Ev|]. split; [exact Ev'|]. subst v v'. rewrite Ew, Eh. destruct M as (_ & M2 & M3 & _).
  apply Z.div_le_mono; [nia|]. apply Z.mul_le_mono_nonneg_l; [lia|]. unfold ink_sum. rewrite Ew, Eh. apply zsum_le. intros y _. apply zsum_le. intros x _.
  pose proof (less_pixel a b x y L). destruct (ink b x y), (ink a x y); lia.
Qed.

(** * The programs *)
Lemma load_clamped f lum : load_image f (clamp lum) = load_image f lum.
Proof. destruct f as [f|]; [apply luminance_clamped|reflexivity]. Qed.
Lemma load_plain f lum lum' : plain_file f -> load_image f lum' = load_image f lum.
Proof. intros H. destruct f as [f|]; [|reflexivity]. apply luminance_uncoloured. now apply H. Qed.
Lemma shown_same disk lum lum' names : Forall (fun n => load_image (disk n) lum' = load_image (disk n) lum) names -> forall out, show_files disk lum' names out = show_files disk lum names out.
Proof.
  induction 1 as [|n names Hn F IH]; intros out; [reflexivity|]. cbn [show_files]. rewrite Hn. destruct (load_image (disk n) lum); try reflexivity. destruct (show_characters a); cbn [bind]; auto.
Qed.
Lemma learnt_same_aux disk lum lum' n : forall names out, (List.length names < n)%nat -> (forall k i, nth_error names (3 * k) = Some i -> load_image (disk i) lum' = load_image (disk i) lum) ->
  learn_files disk lum' names out = learn_files disk lum names out.
Proof.
  induction n as [|n IH]; intros names out L H; [lia|]. destruct names as [|i [|t [|f names]]]; try reflexivity. cbn [learn_files]. destruct (disk t) as [txt|]; [|reflexivity].
  rewrite (H 0%nat i eq_refl). destruct (load_image (disk i) lum) as [img| | |]; try reflexivity. destruct (learn_image img txt f) as [(o & e)| | |]; cbn [bind]; try reflexivity. destruct e; try reflexivity.
  apply IH; [cbn [List.length] in L; lia|]. intros k j Hj. apply (H (S k)). replace (3 * S k)%nat with (S (S (S (3 * k)))) by lia. exact Hj.
Qed.
Lemma learnt_same disk lum lum' names out : (forall k i, nth_error names (3 * k) = Some i -> load_image (disk i) lum' = load_image (disk i) lum) ->
  learn_files disk lum' names out = learn_files disk lum names out.
Proof. apply (learnt_same_aux disk lum lum' (S (List.length names))). lia. Qed.
Theorem programs_clamped disk lum names out : show_files disk (clamp lum) names out = show_files disk lum names out /\ learn_files disk (clamp lum) names out = learn_files disk lum names out.
Proof.
  split; [apply shown_same, Forall_forall; intros; apply load_clamped|apply learnt_same; intros; apply load_clamped].
Qed.
Theorem programs_plain disk lum lum' names out :
  (Forall (fun n => plain_file (disk n)) names -> show_files disk lum' names out = show_files disk lum names out) /\
  ((forall k i, nth_error names (3 * k) = Some i -> plain_file (disk i)) -> learn_files disk lum' names out = learn_files disk lum names out).
Proof.
  split; intros H; [apply shown_same; revert H; apply Forall_impl; intros n; apply load_plain|apply learnt_same; intros k i Hk; apply load_plain; exact (H k i Hk)].
Qed.
Theorem luminance_density buf lum lum' a b : lum <= lum' -> image_of_bytes buf lum = Ok a -> image_of_bytes buf lum' = Ok b -> measurable a (iw a * ih a) ->
  exists v v', density a = Ok v /\ density b = Ok v' /\ v' <= v.
Proof.
  intros L Ea Eb M. destruct (luminance_less buf lum lum' L) as [(a' & b' & Ea' & Eb' & Li)|(N & _)]; [|exfalso; exact (N a Ea)].
  rewrite Ea in Ea'. injection Ea' as <-. rewrite Eb in Eb'. injection Eb' as <-. now apply less_density.
Qed.
