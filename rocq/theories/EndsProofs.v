(** Every run ends: the images and their features. *)
From Verif Require Import Base BaseProofs SortModel ImageModel StratModel ZoneModel DatasModel TrieModel EndsSpec.

Lemma ends_bind {A B} (m : res A) (k : A -> res B) : ends m -> (forall a, m = Ok a -> ends (k a)) -> ends (bind m k).
Proof. unfold ends. intros H1 H2. destruct m; cbn [bind]; try discriminate; [now apply H2|congruence]. Qed.
Lemma ends_rd {A} (l : list A) i : ends (rd l i).
Proof. unfold ends, rd. destruct (i <? 0); [discriminate|]. destruct (nth_error _ _); discriminate. Qed.
Lemma ends_wr {A} (l : list A) i v : ends (wr l i v).
Proof. unfold ends, wr. destruct (_ || _); discriminate. Qed.
Lemma ends_emit {A} cap (l : list A) v : ends (emit cap l v).
Proof. unfold ends, emit. destruct (_ <? _); discriminate. Qed.
Lemma ends_divu a b : ends (divu a b).
Proof. unfold ends, divu. destruct (_ =? _); discriminate. Qed.
Lemma ends_i32 a : ends (i32 a).
Proof. unfold ends, i32. destruct (_ && _); discriminate. Qed.
Lemma ends_for_up {St} (body : Z -> St -> res St) n : (forall i s, ends (body i s)) -> forall i s, ends (for_up n i body s).
Proof.
  intros Hb. induction n as [|n IH]; intros i s; cbn [for_up]; [discriminate|]. apply ends_bind; [apply Hb|]. intros. apply IH.
Qed.
Lemma ends_for_inv {St} (body : Z -> St -> res St) (I : Z -> St -> Prop) n :
  (forall i s, I i s -> ends (body i s)) -> (forall i s s', I i s -> body i s = Ok s' -> I (i + 1) s') -> forall i s, I i s -> ends (for_up n i body s).
Proof.
  intros Hb Hs. induction n as [|n IH]; intros i s HI; cbn [for_up]; [discriminate|]. apply ends_bind; [now apply Hb|]. intros. apply IH. eapply Hs; eauto.
Qed.
Lemma ends_map_res {A B} (f : A -> res B) l : (forall a, ends (f a)) -> ends (map_res f l).
Proof.
  intros Hf. induction l as [|a l IH]; cbn [map_res]; [discriminate|]. apply ends_bind; [apply Hf|]. intros. apply ends_bind; [exact IH|]. discriminate.
Qed.
Lemma ends_map_in {A B} (f : A -> res B) l : (forall a, In a l -> ends (f a)) -> ends (map_res f l).
Proof.
  intros Hf. induction l as [|a l IH]; cbn [map_res]; [discriminate|]. apply ends_bind; [apply Hf; now left|]. intros. apply ends_bind; [|discriminate].
  apply IH. intros. apply Hf. now right.
Qed.
(** A loop whose measure decreases. *)
Lemma ends_loop {St R} (I : St -> Prop) (m : St -> nat) (body : St -> res (St + R)) :
  (forall s, I s -> ends (body s)) -> (forall s s', I s -> body s = Ok (inl s') -> I s' /\ (m s' < m s)%nat) ->
  forall fuel s, I s -> (m s < fuel)%nat -> ends (loop fuel body s).
Proof.
  intros Hb Hs fuel. induction fuel as [|f IH]; intros s HI Hm; [lia|]. cbn [loop]. specialize (Hb s HI). specialize (Hs s).
  destruct (body s) as [[s'|r]| | |]; try discriminate; [|congruence]. destruct (Hs s' HI eq_refl). apply IH; [assumption|lia].
Qed.
(** A search by halving. *)
Lemma ends_halving p : (forall i, ends (p i)) -> forall fuel lo len, Z.max 0 len < Z.of_nat fuel -> ends (halving fuel p lo len).
Proof.
  intros Hp fuel. induction fuel as [|f IH]; intros lo len Hl; cbn [halving]; [lia|].
  destruct (Z.leb_spec len 0); [discriminate|]. cbv zeta. apply ends_bind; [apply Hp|]. intros b _.
  pose proof (Z.div_lt len 2 ltac:(lia) ltac:(lia)). pose proof (Z.div_pos len 2 ltac:(lia) ltac:(lia)). destruct b; apply IH; lia.
Qed.
Lemma ends_partition p lo hi : (forall i, ends (p i)) -> ends (partition_point p lo hi).
Proof. intros Hp. apply ends_halving; [exact Hp|]. lia. Qed.

Ltac ends1 :=
  match goal with
  | |- ends (Ok _) => discriminate
  | |- ends (Throw _) => discriminate
  | |- ends UB => discriminate
  | |- ends (rd _ _) => apply ends_rd
  | |- ends (wr _ _ _) => apply ends_wr
  | |- ends (emit _ _ _) => apply ends_emit
  | |- ends (divu _ _) => apply ends_divu
  | |- ends (i32 _) => apply ends_i32
  | |- ends (bind _ _) => apply ends_bind; [| let x := fresh "x" in let E := fresh "E" in intros x E]
  | |- ends (for_up _ _ _ _) => apply ends_for_up; let i := fresh "i" in let s := fresh "s" in intros i s
  | |- ends (map_res _ _) => apply ends_map_res; let a := fresh "a" in intros a
  | |- ends (partition_point _ _ _) => apply ends_partition; let i := fresh "i" in intros i
  | |- ends (if ?b then _ else _) => destruct b eqn:?
  | |- ends (match ?x with _ => _ end) => destruct x eqn:?
  end.
Ltac ends_auto := repeat (cbv beta zeta; ends1).

(** * Images *)
Lemma rd_Ok {A} (l : list A) i x : rd l i = Ok x -> 0 <= i < vsize l.
Proof.
  intros H. apply rd_inv in H as (H1 & H2). assert (nth_error l (Z.to_nat i) <> None) as N by congruence. apply nth_error_Some in N. unfold vsize. lia.
Qed.
Lemma wr_Ok {A} (l l' : list A) i v : wr l i v = Ok l' -> 0 <= i < vsize l /\ vsize l' = vsize l /\ l' = upd l (Z.to_nat i) v.
Proof.
  unfold wr, vsize. destruct (Z.ltb_spec i 0); [discriminate|]. destruct (Z.leb_spec (Z.of_nat (List.length l)) i); [discriminate|]. cbn [orb]. intros E. injection E as <-.
  rewrite upd_length. auto with zarith.
Qed.
Lemma emit_Ok {A} cap (l l' : list A) v : emit cap l v = Ok l' -> vsize l < cap /\ l' = l ++ [v].
Proof. unfold emit, vsize. destruct (Z.ltb_spec (Z.of_nat (List.length l)) cap); [|discriminate]. intros E. injection E as <-. auto. Qed.
Lemma for_inv {St} (body : Z -> St -> res St) (I : Z -> St -> Prop) n :
  (forall i s s', I i s -> body i s = Ok s' -> I (i + 1) s') -> forall i s r, I i s -> for_up n i body s = Ok r -> I (i + Z.of_nat n) r.
Proof.
  intros Hb. induction n as [|n IH]; intros i s r HI; cbn [for_up].
  - intros E. injection E as <-. now rewrite Z.add_0_r.
  - intros E. apply bind_Ok in E as (s' & E1 & E2). apply IH in E2; [|eapply Hb; eauto]. now replace (i + Z.of_nat (S n)) with (i + 1 + Z.of_nat n) by lia.
Qed.
Lemma loop_inv {St R} (I : St -> Prop) (Q : R -> Prop) (body : St -> res (St + R)) :
  (forall s s', I s -> body s = Ok (inl s') -> I s') -> (forall s r, I s -> body s = Ok (inr r) -> Q r) ->
  forall fuel s r, I s -> loop fuel body s = Ok r -> Q r.
Proof.
  intros Hs Hr fuel. induction fuel as [|f IH]; intros s r HI; cbn [loop]; [discriminate|]. destruct (body s) as [[s'|r']| | |] eqn:E; try discriminate.
  - apply IH. eapply Hs; eauto.
  - intros H. injection H as <-. eapply Hr; eauto.
Qed.

Lemma area_range img : 0 <= area img < 4294967296.
Proof. apply u32_range. Qed.

Lemma ends_copy_n src n : forall d cap out, ends (copy_n src n d cap out).
Proof. induction n as [|n IH]; intros; cbn [copy_n]; ends_auto. apply IH. Qed.
Lemma copy_n_cap src n : forall d cap out r, copy_n src n d cap out = Ok r -> vsize out <= cap -> vsize r <= cap.
Proof.
  induction n as [|n IH]; intros d cap out r; cbn [copy_n]; intros E H.
  - injection E as <-. exact H.
  - apply bind_Ok in E as (v & _ & E). apply bind_Ok in E as (o & E1 & E). apply (IH _ _ _ _ E). apply emit_Ok in E1 as (? & ->). unfold vsize in *. rewrite app_length. cbn [List.length]. lia.
Qed.
Lemma ends_section img x y w h : ends (section img x y w h).
Proof. unfold section, section_rows. ends_auto. apply ends_copy_n. Qed.
Lemma section_sane img x y w h r : section img x y w h = Ok r -> 0 <= w < 4294967296 -> 0 <= h < 4294967296 -> sane r.
Proof.
  unfold section, section_rows. intros E Hw Hh. apply bind_Ok in E as (out & E & E2). injection E2 as <-. apply bind_Ok in E as ((d & o) & E & E2). injection E2 as <-.
  split; [exact Hw|]. split; [exact Hh|]. unfold area. cbn [iw ih idata].
  apply (for_inv _ (fun _ '(d, o) => vsize o <= u32 (w * h))) in E; [exact E| |apply u32_range].
  intros i (d1 & o1) (d2 & o2) H1 E1. apply bind_Ok in E1 as (o3 & E1 & E2). injection E2 as <- <-. apply copy_n_cap in E1; assumption.
Qed.
Lemma ends_clone img : ends (clone img).
Proof. apply ends_section. Qed.

(** A walk of step [w] over cells that are read. *)
Lemma ends_rotate90_col img cap x out : sane img -> 0 <= x -> ends (rotate90_col img cap x out).
Proof.
  intros (Hw & Hh & Hl) Hx. unfold rotate90_col. pose proof (area_range img) as Ha.
  apply (ends_loop (fun '(d, _) => exists j, 0 <= j <= ih img /\ d = x + j * iw img) (fun '(d, _) => Z.to_nat (ih img - (d - x) / iw img))).
  - intros (d & o) _. ends_auto.
  - intros (d & o) (d2 & o2) (j & Hj & ->). destruct (Z.eqb_spec (x + j * iw img) (x + area img)) as [E|E]; [discriminate|]. intros H.
    apply bind_Ok in H as (v & E1 & H). apply bind_Ok in H as (o' & _ & H). injection H as <- <-. apply rd_Ok in E1.
    assert (Hw1 : iw img <> 0) by (intros Hw0; apply E; unfold area; rewrite Hw0; cbn; lia).
    assert (j < ih img).
    { destruct (Z.eq_dec j (ih img)) as [-> |]; [|lia]. exfalso. destruct (Z.lt_ge_cases (iw img * ih img) 4294967296) as [L|L].
      - apply E. unfold area. rewrite u32_small by nia. lia.
      - nia. }
    split; [exists (j + 1); lia|].
    replace (x + j * iw img + iw img - x) with ((j + 1) * iw img) by lia. replace (x + j * iw img - x) with (j * iw img) by lia. rewrite !Z.div_mul by exact Hw1. lia.
  - exists 0. lia.
  - replace (x - x) with 0 by lia. rewrite Zdiv_0_l. lia.
Qed.
Lemma ends_rotate90_cols img cap n : sane img -> forall out, ends (rotate90_cols img cap n out).
Proof. intros S. induction n as [|n IH]; intros out; cbn [rotate90_cols]; ends_auto; [apply ends_rotate90_col; [exact S|lia]|apply IH]. Qed.
Lemma ends_rotate90 img : sane img -> ends (rotate90 img).
Proof. intros S. unfold rotate90. ends_auto. now apply ends_rotate90_cols. Qed.
Lemma rotate90_cols_cap img cap n : forall out r, rotate90_cols img cap n out = Ok r -> vsize out <= cap -> vsize r <= cap.
Proof.
  induction n as [|n IH]; intros out r; cbn [rotate90_cols]; intros E H.
  - injection E as <-. exact H.
  - apply bind_Ok in E as (o & E1 & E). apply (IH _ _ E). unfold rotate90_col in E1.
    revert E1. apply (loop_inv (fun '(_, o) => vsize o <= cap) (fun o => vsize o <= cap)); [| |exact H].
    + intros (d & o1) (d2 & o2) H1 E1. destruct (_ =? _); [discriminate|]. apply bind_Ok in E1 as (v & _ & E1). apply bind_Ok in E1 as (o3 & E1 & E2). injection E2 as <- <-.
      apply emit_Ok in E1 as (? & ->). unfold vsize in *. rewrite app_length. cbn [List.length]. lia.
    + intros (d & o1) r1 H1 E1. destruct (_ =? _); [injection E1 as <-; exact H1|]. apply bind_Ok in E1 as (v & _ & E1). apply bind_Ok in E1 as (o3 & E1 & E2). discriminate.
Qed.
Lemma rotate90_sane img r : sane img -> rotate90 img = Ok r -> sane r /\ iw r = ih img /\ ih r = iw img.
Proof.
  intros (Hw & Hh & Hl) E. unfold rotate90 in E. apply bind_Ok in E as (out & E & E2). injection E2 as <-. cbn [iw ih]. split; [|auto]. split; [exact Hh|]. split; [exact Hw|].
  unfold area. cbn [iw ih idata]. rewrite (Z.mul_comm (ih img)). apply rotate90_cols_cap in E; [exact E|]. apply u32_range.
Qed.
Lemma ends_equal_n a b n : forall i, ends (equal_n a b n i).
Proof. induction n as [|n IH]; intros; cbn [equal_n]; ends_auto. apply IH. Qed.
Lemma ends_image_eq a b : ends (image_eq a b).
Proof. unfold image_eq. ends_auto. apply ends_equal_n. Qed.
Lemma ends_mismatch_cmp a b n : forall i, ends (mismatch_cmp a b n i).
Proof. induction n as [|n IH]; intros; cbn [mismatch_cmp]; ends_auto. apply IH. Qed.
Lemma ends_image_compare a b : ends (image_compare a b).
Proof. unfold image_compare. ends_auto. apply ends_mismatch_cmp. Qed.
