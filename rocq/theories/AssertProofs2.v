(** The assertions of the code that reads the text. *)
From Verif Require Import Base BaseProofs SortModel TrieModel DictIoModel SpellModel SpellSpec SpellProofs IndexModel GlyphsModel StratModel StratFeatures3 ZoneModel ZoneProofs3 FloatModel FloatProofs DatasModel RecogModel
  FilterSpec AssembleModel AssembleSpec AssembleProofs AssertSpec AssertModel2.
From Coq Require Import Sorted.

Lemma all_true_app a b : all_true (a ++ b) <-> all_true a /\ all_true b.
Proof.
  unfold all_true. split.
  - intros H. split; intros x Hx; apply H, in_or_app; [left|right]; exact Hx.
  - intros [HA HB] x Hx. apply in_app_iff in Hx as [Hx|Hx]; [apply HA|apply HB]; exact Hx.
Qed.

Section Assembly.
Context (g : glyphs_table) (dict : list fnode) (st : list (list oview)) (amb brks : list Z).
Context (HR : resolvable g st amb) (HB : increasing_breaks (vsize amb) brks) (HN : vsize amb < 4294967296).
Context (spell : list (list (list Z)) -> option (list Z)).
Let n := vsize amb.
Let spaces := brks ++ [n].
Context (HD : forall ps out, ps <> [] -> (forall p, In p ps -> exists i, 0 <= i < n /\ p = cand g st amb i) ->
  disambiguous dict ps out = Ok (verdict out (spell ps))).
Notation next_break := (next_break amb brks).

Definition abody := (fun '(first, it_space, result, count, out) =>
       if first =? n then Ok (inr out)
       else
         e <- break_at amb spaces it_space ;;
         let out := out ++ [e <=? n; first <? e] in
         if negb (first <? e) then Ok (inr out)
         else
           middle <- find_mark g st amb (S (List.length amb)) true first e ;;
           ps <- positions_of g st amb (S (List.length amb)) first middle ;;
           '(found, result) <- disambiguous dict ps result ;;
           let out := out ++ (middle <=? e) :: (if found : bool then [] else append_asserts n first middle) in
           result <- (if found : bool then Ok result else append_all g st amb (S (List.length amb)) first middle result) ;;
           '(middle, result, count) <- append_marks g st amb (S (List.length amb)) middle e result count ;;
           if (middle =? e) && negb (e =? n) then Ok (inl (middle, it_space + 1, result ++ [32], count, out))
           else Ok (inl (middle, it_space, result, count, out))) : Z * Z * list Z * Z * list bool -> res (Z * Z * list Z * Z * list bool + list bool).

Lemma append_asserts_true i m : 0 <= i <= m -> m <= n -> all_true (append_asserts n i m).
Proof.
  intros H1 H2 b Hb. unfold append_asserts in Hb. apply in_map_iff in Hb. destruct Hb as (k & <- & Hk). apply zrange_In in Hk. apply Z.leb_le. lia.
Qed.

Lemma abody_ok i k out count acc : 0 <= i < n -> next_break k i -> 0 <= count <= i ->
  exists m k' out' c' a, abody (i, k, out, count, acc) = Ok (inl (m, k', out', c', acc ++ a)) /\ i < m <= n /\ (m < n -> next_break k' m) /\ 0 <= c' <= m /\ all_true a.
Proof.
  intros Hi (e & Re & He & Hbr & Hlast) Hc. unfold abody. destruct (Z.eqb_spec i n); [lia|]. unfold break_at. fold n in Re. fold spaces in Re. rewrite Re. cbn [bind]. fold n.
  fold n in He. rewrite (proj2 (Z.leb_le e n)) by lia. cbn [bind]. rewrite (proj2 (Z.ltb_lt i e)) by lia. cbn [negb].
  destruct (find_mark_ok g dict st amb brks HR spell HD true (S (List.length amb)) i e) as (m1 & -> & Hm1 & S1 & D1); [lia|unfold n in *; lia|apply (fuel_ok g dict st amb brks spell HD); unfold n in *; lia|]. cbn [bind].
  rewrite (positions_ok g dict st amb brks HR spell HD) by (try apply (fuel_ok g dict st amb brks spell HD); unfold n in *; lia). cbn [bind].
  assert (EX : exists found r1 r2, disambiguous dict (map (cand g st amb) (range i m1)) out = Ok (found, r1) /\
     (if found : bool then Ok r1 else append_all g st amb (S (List.length amb)) i m1 r1) = Ok r2).
  { destruct (Z.eq_dec i m1) as [<-|Ne].
    - rewrite range_nil. cbn [map]. exists false, out. eexists. split; [destruct dict; reflexivity|].
      rewrite (append_all_ok g dict st amb brks HR spell HD) by (try apply (fuel_ok g dict st amb brks spell HD); unfold n in *; lia). reflexivity.
    - assert (NN : map (cand g st amb) (range i m1) <> []) by (rewrite range_cons by lia; discriminate).
      rewrite HD; [|exact NN|intros p Hp; apply in_map_iff in Hp; destruct Hp as (j & <- & Hj); apply range_In in Hj; exists j; split; [lia|reflexivity]].
      destruct (spell (map (cand g st amb) (range i m1))) as [w|]; cbn [verdict]; eexists; eexists; eexists; (split; [reflexivity|]); [reflexivity|].
      rewrite (append_all_ok g dict st amb brks HR spell HD) by (try apply (fuel_ok g dict st amb brks spell HD); unfold n in *; lia). reflexivity. }
  destruct EX as (found & r1 & r2 & -> & E2). cbn [bind]. rewrite E2. cbn [bind].
  assert (EMP : forall m, m1 <= m -> 0 <= empties g st amb (range m1 m) <= m - m1).
  { intros m Hm. pose proof (empties_le g dict st amb spell HD (range m1 m)). rewrite range_vsize in H by lia. exact H. }
  destruct (append_marks_ok g dict st amb brks HR HN spell HD (S (List.length amb)) m1 e r2 count) as (m2 & -> & Hm2 & S2 & D2);
    [lia|unfold n in *; lia|apply (fuel_ok g dict st amb brks spell HD); unfold n in *; lia|lia|unfold n in *; lia|]. cbn [bind].
  specialize (EMP m2 ltac:(lia)).
  assert (Pm : i < m2).
  { destruct (Z.eq_dec m1 i) as [E1|]; [|lia]. subst m1. destruct (Z.eq_dec m2 i) as [E2'|]; [|lia]. subst m2. exfalso. destruct D1 as [D1|D1]; [lia|]. destruct D2 as [D2|D2]; [lia|]. congruence. }
  assert (AT : all_true ([true; true] ++ (m1 <=? e) :: (if found then [] else append_asserts n i m1))).
  { rewrite (proj2 (Z.leb_le m1 e)) by lia. intros b Hb. destruct Hb as [<-|[<-|[<-|Hb]]]; [reflexivity..|].
    destruct found; [destruct Hb|]. exact (append_asserts_true i m1 ltac:(lia) ltac:(lia) b Hb). }
  replace (e <=? n) with true by (symmetry; apply Z.leb_le; lia). rewrite <- (app_assoc acc).
  destruct (Z.eqb_spec m2 e) as [B2|B2]; destruct (Z.eqb_spec e n) as [B3|B3]; cbn [andb negb].
  - exists m2, k. eexists. eexists. eexists. split; [reflexivity|]. split; [lia|]. split; [lia|]. split; [lia|exact AT].
  - exists m2, (k + 1). eexists. eexists. eexists. split; [reflexivity|]. split; [lia|]. split; [|split; [lia|exact AT]].
    intros _. rewrite B2. apply (next_break_succ g dict st amb brks HB spell HD); [exact Re|unfold n in *; lia].
  - exists m2, k. eexists. eexists. eexists. split; [reflexivity|]. split; [lia|]. split; [|split; [lia|exact AT]].
    intros _. exists e. split; [exact Re|]. split; [unfold n in *; lia|]. split; [intros j Hj; apply Hbr; lia|exact Hlast].
  - exists m2, k. eexists. eexists. eexists. split; [reflexivity|]. split; [lia|]. split; [|split; [lia|exact AT]].
    intros _. exists e. split; [exact Re|]. split; [unfold n in *; lia|]. split; [intros j Hj; apply Hbr; lia|exact Hlast].
Qed.

Lemma aloop_ok : forall fuel i k out count acc, 0 <= i <= n -> (i < n -> next_break k i) -> 0 <= count <= i -> n - i < Z.of_nat fuel ->
  exists a, loop fuel abody (i, k, out, count, acc) = Ok (acc ++ a) /\ all_true a.
Proof.
  induction fuel as [|f IH]; intros i k out count acc Hi Hk Hc Hf; [lia|]. cbn [loop]. destruct (Z.eq_dec i n) as [E|E].
  - subst i. unfold abody at 1. rewrite Z.eqb_refl. exists []. rewrite app_nil_r. split; [reflexivity|intros b []].
  - destruct (abody_ok i k out count acc) as (m & k' & out' & c' & a & -> & Hm & Hk' & Hc' & Ha); [lia|apply Hk; lia|lia|].
    cbn [bind]. destruct (IH m k' out' c' (acc ++ a)) as (a' & -> & Ha'); [lia|exact Hk'|lia|lia|].
    exists (a ++ a'). rewrite app_assoc. split; [reflexivity|]. apply all_true_app. split; assumption.
Qed.

Lemma assemble_asserts_true : exists a, assemble_asserts g dict st amb spaces = Ok a /\ all_true a.
Proof.
  pose proof (n_nonneg amb) as Hn. destruct (spaces_rd g dict st amb brks spell HD 0 ltac:(pose proof (n_nonneg brks); lia)) as [e0 R0].
  assert (He0 : 0 <= e0 <= n) by (destruct (spaces_at g dict st amb brks spell HD 0 e0 R0) as [[_ I]|[_ ->]]; [apply (proj2 HB) in I; unfold n; lia|unfold n; lia]).
  unfold assemble_asserts. unfold break_at at 1. fold n in R0. fold spaces in R0. rewrite R0. cbn [bind]. fold n. rewrite (proj2 (Z.leb_le e0 n)) by lia. cbn [bind].
  destruct (find_mark_ok g dict st amb brks HR spell HD false (S (List.length amb)) 0 e0) as (m & -> & Hm & S1 & D1); [lia|unfold n in *; lia|apply (fuel_ok g dict st amb brks spell HD); unfold n in *; lia|]. cbn [bind].
  rewrite (append_all_ok g dict st amb brks HR spell HD) by (try apply (fuel_ok g dict st amb brks spell HD); unfold n in *; lia). cbn [bind].
  match goal with |- context [loop ?f _ (?i, ?k, ?o, ?c, ?acc)] => destruct (aloop_ok f i k o c acc) as (a & E & Ha) end.
  - lia.
  - intros L1. destruct (Z.eqb_spec m e0) as [->|Ne].
    + apply (next_break_succ g dict st amb brks HB spell HD 0 e0 R0 L1).
    + apply (next_after g dict st amb brks HB spell HD 0 m e0 R0); [lia|]. intros k' e' R' Hk'. apply rd_inv in R'. lia.
  - lia.
  - unfold n, vsize. lia.
  - exists a. split; [exact E|exact Ha].
Qed.
End Assembly.

Theorem assemble_asserts_ok g dict st amb brks spell :
  resolvable g st amb -> increasing_breaks (vsize amb) brks -> vsize amb < 4294967296 ->
  spelled_by dict (line_of g st amb brks) spell ->
  exists a, assemble_asserts g dict st amb (brks ++ [vsize amb]) = Ok a /\ all_true a.
Proof.
  intros HR HB HN HD. rewrite line_of_part in HD. apply (assemble_asserts_true g dict st amb brks HR HB HN spell).
  intros ps out N P. apply HD; [exact N|]. intros p Hp. destruct (P p Hp) as (i & Hi & ->). unfold part. rewrite map_map. apply in_map_iff. exists i. split; [reflexivity|]. apply range_In. lia.
Qed.

(** * Distances *)
Lemma percent_unit c : 0 <= c <= 100 -> dle d0 (percent c) && dle (percent c) d1 = true.
Proof.
  intros H. assert (K : forallb (fun c => dle d0 (percent c) && dle (percent c) d1) (zrange 101) = true) by (vm_compute; reflexivity).
  rewrite forallb_forall in K. apply K. apply zrange_In. lia.
Qed.
Theorem dist_interval n a b : 0 < n -> 100 * n < 4294967296 -> 0 <= a <= n -> 0 <= b <= n -> dist_assert (RInterval n) (VNum a) (VNum b) = Ok true.
Proof.
  intros H1 H2 Ha Hb. unfold dist_assert. cbn [rel_dist]. destruct (interval_law n a b H1 H2 Ha Hb) as (v & -> & _ & Bv & _). cbn [bind]. rewrite percent_unit by exact Bv. reflexivity.
Qed.
Theorem dist_equal a b : dist_assert REqual (VNum a) (VNum b) = Ok true.
Proof. unfold dist_assert. cbn [rel_dist]. destruct (a =? b); vm_compute; reflexivity. Qed.
Theorem dist_alts a b : a <> [] -> List.length a = List.length b -> dist_assert RAlts (VAlts a) (VAlts b) = Ok true.
Proof.
  intros H1 H2. unfold dist_assert. cbn [rel_dist]. destruct (array_law alt_eqb alt_eqb_eq a b 0 H1 H2) as (v & -> & _ & Bv & _). cbn [bind]. rewrite percent_unit by exact Bv. reflexivity.
Qed.
Theorem dist_zones a b : a <> [] -> List.length a = List.length b -> dist_assert RZones (VArr a) (VArr b) = Ok true.
Proof.
  intros H1 H2. unfold dist_assert. cbn [rel_dist]. destruct (array_law Z.eqb Z.eqb_eq a b 0 H1 H2) as (v & -> & _ & Bv & _). cbn [bind]. rewrite percent_unit by exact Bv. reflexivity.
Qed.
Theorem dist_pz a b : (forall x, In x a -> 0 <= x <= 100) -> (forall y, In y b -> 0 <= y <= 100) -> (forall x y, In (x, y) (combine a b) -> 0 < x + y) ->
  100 * Z.of_nat (List.length a) < 4294967296 -> dist_assert RPz (VVec a) (VVec b) = Ok true.
Proof.
  intros Ha Hb Hv Hl. unfold dist_assert. cbn [rel_dist]. destruct (pz_compute_ok a b Ha Hb Hv Hl) as (v & -> & Bv & _). cbn [bind]. rewrite percent_unit by exact Bv. reflexivity.
Qed.
Theorem indexes_assert_iff count : 0 <= count -> (indexes_assert count = true <-> count < 4294967296).
Proof.
  intros H. unfold indexes_assert. rewrite Z.eqb_eq. split; [|intros L; apply u32_small; lia]. intros E. rewrite <- E. pose proof (Z.mod_pos_bound count 4294967296 ltac:(lia)). change (u32 count) with (count mod 4294967296) in *. lia.
Qed.
