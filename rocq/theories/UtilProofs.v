(** Reindexing, and the buffers of the image context. *)
From Verif Require Import Base BaseProofs ImageModel ImageSpec ImageProofs TrieModel TrieProofs FlatTrieProofs IndexProofs UtilModel UtilSpec.

Section Reindex.
Context {T : Type} (def : T) (moved : T -> T).
Lemma nth_upd_neq (l : list T) : forall i j v, i <> j -> nth_error (upd l i v) j = nth_error l j.
Proof. induction l as [|x l IH]; intros [|i] [|j] v H; cbn [upd nth_error]; try reflexivity; try congruence. apply IH. congruence. Qed.
Lemma reindex_loop_ok : forall indexes cont done (rest : list T), NoDup indexes -> (forall i, In i indexes -> 0 <= i < vsize cont) ->
  (List.length indexes <= List.length rest)%nat ->
  reindex_loop moved indexes cont (done ++ rest) (vsize done) =
    Ok (done ++ map (fun i => nth (Z.to_nat i) cont def) indexes ++ skipn (List.length indexes) rest).
Proof.
  induction indexes as [|i indexes IH]; intros cont done rest ND HI HL; cbn [reindex_loop map List.length skipn app]; [reflexivity|].
  destruct rest as [|r rest]; [cbn in HL; lia|]. inversion ND as [|? ? Ni ND']; subst.
  specialize (HI i (or_introl eq_refl)) as Hi. assert (Er : rd cont i = Ok (nth (Z.to_nat i) cont def)).
  { apply rd_ok; [lia|]. apply nth_error_nth'. unfold vsize in Hi. lia. }
  rewrite Er. cbn [bind]. rewrite wr_mid by reflexivity. cbn [bind]. rewrite wr_ok by (unfold vsize in Hi; lia). cbn [bind].
  replace (done ++ nth (Z.to_nat i) cont def :: rest) with ((done ++ [nth (Z.to_nat i) cont def]) ++ rest) by (rewrite <- app_assoc; reflexivity).
  replace (vsize done + 1) with (vsize (done ++ [nth (Z.to_nat i) cont def])) by (rewrite vsize_app; reflexivity).
  rewrite IH; [|exact ND'| |cbn in HL; lia].
  - rewrite <- !app_assoc. cbn [app]. do 3 f_equal. f_equal. apply map_ext_in. intros j Hj. assert (Hne : Z.to_nat i <> Z.to_nat j).
    { intros E. apply Ni. specialize (HI j (or_intror Hj)). replace i with j by lia. exact Hj. }
    pose proof (nth_upd_neq cont (Z.to_nat i) (Z.to_nat j) (moved (nth (Z.to_nat i) cont def)) Hne) as Q.
    destruct (nth_error cont (Z.to_nat j)) as [y|] eqn:Ey.
    + rewrite (nth_error_nth _ _ def Q), (nth_error_nth _ _ def Ey). reflexivity.
    + apply nth_error_None in Ey. specialize (HI j (or_intror Hj)). unfold vsize in HI. lia.
  - intros j Hj. unfold vsize. rewrite upd_length. apply HI. right. exact Hj.
Qed.
Theorem reindex_ok indexes cont : NoDup indexes -> (forall i, In i indexes -> 0 <= i < vsize cont) -> vsize indexes = vsize cont ->
  reindex def moved indexes cont = Ok (map (fun i => nth (Z.to_nat i) cont def) indexes).
Proof.
  intros ND HI HL. unfold reindex. pose proof (reindex_loop_ok indexes cont [] (repeat def (List.length cont)) ND HI) as Q. cbn [app] in Q. change (vsize (@nil T)) with 0 in Q.
  rewrite Q by (rewrite repeat_length; unfold vsize in HL; lia). f_equal. rewrite skipn_all2 by (rewrite repeat_length; unfold vsize in HL; lia). apply app_nil_r.
Qed.
End Reindex.

(** The image context. *)
Lemma firstn_vsize {A} (l r : list A) n : n = vsize l -> firstn (Z.to_nat n) (l ++ r) = l.
Proof. intros ->. unfold vsize. rewrite Nat2Z.id, firstn_app, Nat.sub_diag, firstn_O, firstn_all, app_nil_r. reflexivity. Qed.
Lemma skipn_vsize {A} (l r : list A) n : n = vsize l -> skipn (Z.to_nat n) (l ++ r) = r.
Proof. intros ->. unfold vsize. rewrite Nat2Z.id, skipn_app, Nat.sub_diag, skipn_all. reflexivity. Qed.
Lemma vsize_zrange n : 0 <= n -> vsize (zrange n) = n.
Proof. intros H. unfold vsize, zrange. rewrite map_length, seq_length. lia. Qed.

Lemma reindex_elements {T} (def : T) moved indexes cont : permutation_of_positions cont indexes ->
  exists r, reindex def moved indexes cont = Ok r /\ elements_at cont indexes r.
Proof.
  intros (ND & HL & HI). eexists. split; [apply reindex_ok; assumption|]. split; [apply vsize_map|]. intros k i Hk.
  assert (Hi : 0 <= i < vsize cont) by (apply HI, (nth_error_In _ _ Hk)). exists (nth (Z.to_nat i) cont def).
  split; [apply nth_error_nth'; unfold vsize in Hi; lia|]. exact (map_nth_error _ _ _ Hk).
Qed.
(** More positions than elements: a write past the new container. *)
Lemma reindex_too_many {T} (def : T) moved : forall indexes cont (done rest : list T), (List.length rest < List.length indexes)%nat ->
  (forall i, In i indexes -> 0 <= i < vsize cont) -> reindex_loop moved indexes cont (done ++ rest) (vsize done) = UB.
Proof.
  induction indexes as [|i indexes IH]; intros cont done rest HL HI; [cbn in HL; lia|]. cbn [reindex_loop].
  specialize (HI i (or_introl eq_refl)) as Hi.
  assert (Er : rd cont i = Ok (nth (Z.to_nat i) cont def)). { apply rd_ok; [lia|]. apply nth_error_nth'. unfold vsize in Hi. lia. }
  rewrite Er. cbn [bind]. destruct rest as [|r rest].
  - rewrite app_nil_r. assert (Ew : forall x, wr done (vsize done) x = UB). { intros x. unfold wr. replace ((vsize done <? 0) || _) with true; [reflexivity|]. unfold vsize. lia. }
    rewrite Ew. reflexivity.
  - rewrite wr_mid by reflexivity. cbn [bind]. rewrite wr_ok by (unfold vsize in Hi; lia). cbn [bind].
    replace (done ++ nth (Z.to_nat i) cont def :: rest) with ((done ++ [nth (Z.to_nat i) cont def]) ++ rest) by (rewrite <- app_assoc; reflexivity).
    replace (vsize done + 1) with (vsize (done ++ [nth (Z.to_nat i) cont def])) by (rewrite vsize_app; reflexivity).
    apply IH; [cbn in HL; lia|]. intros j Hj. unfold vsize. rewrite upd_length. apply HI. right. exact Hj.
Qed.
Lemma reindex_overflow {T} (def : T) moved indexes cont : vsize cont < vsize indexes -> (forall i, In i indexes -> 0 <= i < vsize cont) ->
  reindex def moved indexes cont = UB.
Proof.
  intros HL HI. unfold reindex. apply (reindex_too_many def moved indexes cont [] (repeat def (List.length cont))); [|exact HI].
  rewrite repeat_length. unfold vsize in HL. lia.
Qed.

(** What the context holds: the image, and room for another. *)
Definition holds (c : image_ctx) (img : image) : Prop :=
  ic_w c = iw img /\ ic_h c = ih img /\ exists rest, ic_data c = idata img ++ rest /\ vsize (idata img) <= vsize rest.
Lemma holds_view c img : wf_image img -> holds c img -> ctx_view c = img.
Proof.
  intros (Hw & Hh & Ha & Hl) (Ew & Eh & rest & Ed & _). unfold ctx_view. rewrite Ew, Eh, Ed, firstn_vsize.
  - destruct img; reflexivity.
  - rewrite u32_small by nia. unfold vsize. lia.
Qed.
Lemma ctx_img_ok junk c img : fits_twice img -> exists c', ctx_img junk c img = Ok c' /\ holds c' img.
Proof.
  intros [(Hw & Hh & Ha & Hl) Hs]. assert (H0 : 0 <= iw img * ih img) by nia. unfold ctx_img, reserve. cbn [ic_data ic_w ic_h].
  rewrite !u32_small by (rewrite ?u32_small; lia). set (A := iw img * ih img) in *. fold (vsize (idata img)) in Hl.
  set (buf := if vsize (ic_data c) <? A * 2 then map junk (zrange (A * 2)) else ic_data c).
  assert (HB : A * 2 <= vsize buf). { unfold buf. destruct (Z.ltb_spec (vsize (ic_data c)) (A * 2)); [rewrite vsize_map, vsize_zrange; lia|lia]. }
  unfold put_cells. rewrite !Z.add_0_l, Hl. replace (A <=? vsize buf) with true by lia. cbn [bind Z.to_nat firstn app].
  eexists. split; [reflexivity|]. split; [reflexivity|]. split; [reflexivity|]. eexists. split; [reflexivity|].
  unfold vsize in *. rewrite skipn_length. lia.
Qed.
Lemma ctx_img90_ok c img : fits_twice img -> holds c img ->
  exists c' r, ctx_img90 c = Ok c' /\ holds c' img /\ quarter_turn img r /\ ctx_view90 c' = r.
Proof.
  intros [Hwf Hs] HC. unfold ctx_img90. rewrite (holds_view c img Hwf HC).
  destruct (rotate90_law img Hwf) as (r & Er & Wr & w & h & P). rewrite Er. cbn [bind].
  destruct HC as (Ew & Eh & rest & Ed & Hr). destruct Hwf as (Hw & Hh & Ha & Hl). pose proof Wr as (Rw & Rh & Ra & Rl).
  assert (H0 : 0 <= iw img * ih img) by nia. rewrite Ew, Eh, u32_small by lia. fold (vsize (idata img)) in Hl. fold (vsize (idata r)) in Rl.
  assert (EA : vsize (idata r) = vsize (idata img)) by (rewrite Rl, Hl, w, h; apply Z.mul_comm).
  unfold put_cells. rewrite Ed, EA, <- Hl, vsize_app. replace (_ <=? _) with true by lia. cbn [bind]. rewrite firstn_vsize by reflexivity.
  eexists. exists r. split; [reflexivity|]. split; [|split].
  - split; [reflexivity|]. split; [reflexivity|]. eexists. split; [reflexivity|]. rewrite vsize_app. pose proof (vsize_nonneg (skipn (Z.to_nat (vsize (idata img) + vsize (idata img))) (idata img ++ rest))). lia.
  - split; [exact Wr|]. split; [exact w|]. split; [exact h|exact P].
  - unfold ctx_view90. cbn [ic_w ic_h ic_data]. rewrite u32_small by lia. rewrite skipn_vsize by lia. rewrite firstn_vsize by lia.
    rewrite <- w, <- h. destruct r; reflexivity.
Qed.
Theorem ctx_history junk : forall h n c img turn, Forall (fun p => fits_twice (fst p)) (h ++ [(img, turn)]) ->
  exists c', ctx_run junk n c (h ++ [(img, turn)]) = Ok c' /\ ctx_view c' = img /\ (turn = true -> quarter_turn img (ctx_view90 c')).
Proof.
  induction h as [|[i t] h IH]; intros n c img turn HF; inversion HF as [|? ? Hi HF']; subst; cbn [fst] in Hi; cbn [app ctx_run].
  - destruct (ctx_img_ok (junk n) c img Hi) as (c1 & E1 & H1). rewrite E1. cbn [bind]. destruct turn.
    + destruct (ctx_img90_ok c1 img Hi H1) as (c2 & r & E2 & H2 & Q & V). rewrite E2. cbn [bind]. exists c2. split; [reflexivity|].
      split; [exact (holds_view _ _ (proj1 Hi) H2)|]. intros _. rewrite V. exact Q.
    + cbn [bind]. exists c1. split; [reflexivity|]. split; [exact (holds_view _ _ (proj1 Hi) H1)|discriminate].
  - destruct (ctx_img_ok (junk n) c i Hi) as (c1 & E1 & H1). rewrite E1. cbn [bind]. destruct t.
    + destruct (ctx_img90_ok c1 i Hi H1) as (c2 & r & E2 & _). rewrite E2. cbn [bind]. apply IH. exact HF'.
    + cbn [bind]. apply IH. exact HF'.
Qed.
(** Other images overflow a new buffer. *)
Theorem ctx_overflow junk img : wf_image img -> 2147483648 <= iw img * ih img -> ctx_img junk new_image_ctx img = UB.
Proof.
  intros (Hw & Hh & Ha & Hl) Hs. unfold ctx_img, reserve, new_image_ctx, put_cells. cbn [ic_data ic_w ic_h]. rewrite (u32_small (iw img * ih img)) by lia.
  set (A := iw img * ih img) in *. assert (E : u32 (A * 2) = A * 2 - 4294967296) by (unfold u32; symmetry; apply (Z.mod_unique _ _ 1); lia).
  rewrite E. change (vsize (@nil Z)) with 0. fold (vsize (idata img)) in Hl. rewrite Hl.
  replace (_ <=? _) with false; [reflexivity|]. symmetry. apply Z.leb_gt. destruct (Z.ltb_spec 0 (A * 2 - 4294967296)).
  - rewrite vsize_map, vsize_zrange; lia.
  - change (vsize (@nil Z)) with 0. lia.
Qed.
(** Any positions of the container. *)
Section Any.
Context {T : Type} (def : T) (moved : T -> T) (cont : list T).
Fixpoint takes (seen indexes : list Z) : list T :=
  match indexes with
  | [] => []
  | i :: l => Nat.iter (count_occ Z.eq_dec seen i) moved (nth (Z.to_nat i) cont def) :: takes (seen ++ [i]) l
  end.
Lemma takes_length indexes : forall seen, List.length (takes seen indexes) = List.length indexes.
Proof. induction indexes as [|i l IH]; intros seen; [reflexivity|]. cbn [takes List.length]. now rewrite IH. Qed.
Lemma takes_nth indexes : forall seen k i, nth_error indexes k = Some i ->
  nth_error (takes seen indexes) k = Some (Nat.iter (count_occ Z.eq_dec (seen ++ firstn k indexes) i) moved (nth (Z.to_nat i) cont def)).
Proof.
  induction indexes as [|j l IH]; intros seen k i Hk; [destruct k; discriminate|]. destruct k as [|k]; cbn [nth_error takes firstn] in *.
  - injection Hk as ->. now rewrite app_nil_r.
  - rewrite (IH _ _ _ Hk), <- app_assoc. reflexivity.
Qed.
Lemma reindex_loop_any : forall indexes cont' seen done rest, (forall i, In i indexes -> 0 <= i < vsize cont) -> List.length cont' = List.length cont ->
  (forall j, 0 <= j < vsize cont -> nth (Z.to_nat j) cont' def = Nat.iter (count_occ Z.eq_dec seen j) moved (nth (Z.to_nat j) cont def)) ->
  (forall j, In j seen -> 0 <= j < vsize cont) -> (List.length indexes <= List.length rest)%nat ->
  reindex_loop moved indexes cont' (done ++ rest) (vsize done) = Ok (done ++ takes seen indexes ++ skipn (List.length indexes) rest).
Proof.
  induction indexes as [|i indexes IH]; intros cont' seen done rest HI HC HS HB HL; cbn [reindex_loop takes List.length skipn app]; [reflexivity|].
  destruct rest as [|r rest]; [cbn in HL; lia|].
  specialize (HI i (or_introl eq_refl)) as Hi. assert (Er : rd cont' i = Ok (nth (Z.to_nat i) cont' def)).
  { apply rd_ok; [lia|]. apply nth_error_nth'. unfold vsize in Hi. lia. }
  rewrite Er. cbn [bind]. rewrite wr_mid by reflexivity. cbn [bind]. rewrite wr_ok by (unfold vsize in Hi; lia). cbn [bind]. rewrite (HS i Hi).
  set (x := Nat.iter _ _ _).
  replace (done ++ x :: rest) with ((done ++ [x]) ++ rest) by (rewrite <- app_assoc; reflexivity).
  replace (vsize done + 1) with (vsize (done ++ [x])) by (rewrite vsize_app; reflexivity).
  rewrite (IH _ (seen ++ [i])).
  - rewrite <- !app_assoc. cbn [app]. reflexivity.
  - intros j Hj. apply HI. now right.
  - rewrite upd_length. exact HC.
  - intros j Hj. rewrite count_occ_app. cbn [count_occ]. destruct (Z.eq_dec i j) as [<-|Hne].
    + rewrite Nat.add_1_r. cbn [Nat.iter]. fold x. apply nth_error_nth. apply upd_nth_same. unfold vsize in Hi. lia.
    + rewrite Nat.add_0_r, <- (HS j Hj). assert (Hn : Z.to_nat i <> Z.to_nat j) by lia. pose proof (nth_upd_neq cont' (Z.to_nat i) (Z.to_nat j) (moved x) Hn) as Q.
      destruct (nth_error cont' (Z.to_nat j)) as [y|] eqn:Ey; [rewrite (nth_error_nth _ _ def Q), (nth_error_nth _ _ def Ey); reflexivity|]. apply nth_error_None in Ey. unfold vsize in Hj. lia.
  - intros j Hj. apply in_app_or in Hj. destruct Hj as [Hj|[<-|[]]]; [now apply HB|exact Hi].
  - cbn in HL. lia.
Qed.
Lemma reindex_takes indexes : (forall i, In i indexes -> 0 <= i < vsize cont) -> vsize indexes = vsize cont -> reindex def moved indexes cont = Ok (takes [] indexes).
Proof.
  intros HI HL. unfold reindex. unfold vsize in HL. pose proof (reindex_loop_any indexes cont [] [] (repeat def (List.length cont)) HI eq_refl) as Q. cbn [app] in Q. change (vsize (@nil T)) with 0 in Q.
  rewrite Q; [|reflexivity|intros j []|rewrite repeat_length; lia]. f_equal. rewrite skipn_all2 by (rewrite repeat_length; lia). apply app_nil_r.
Qed.
Theorem reindex_any indexes : (forall i, In i indexes -> 0 <= i < vsize cont) -> vsize indexes = vsize cont ->
  exists r, reindex def moved indexes cont = Ok r /\ elements_moved moved cont indexes r.
Proof.
  intros HI HL. exists (takes [] indexes). split; [now apply reindex_takes|]. split; [unfold vsize; now rewrite takes_length|]. intros k i Hk.
  assert (Hi : 0 <= i < vsize cont) by (apply HI, (nth_error_In _ _ Hk)). exists (nth (Z.to_nat i) cont def). split; [apply nth_error_nth'; unfold vsize in Hi; lia|]. exact (takes_nth indexes [] k i Hk).
Qed.
End Any.
