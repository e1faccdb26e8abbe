(** Feature files: reading what was written, and truncated files. *)
From Verif Require Import Base BaseProofs StratModel DatasModel StreamModel StreamProofs DatasIoModel DatasIoSpec.

Notation good l := (mkis l false false true).

(** The stream is good and what it still holds is [q], up to the white space
    before it. *)
Definition at_ (q : list Z) (s : istream) : Prop :=
  exists l, s = good l /\ drop_spaces l = drop_spaces q.

Lemma at_refl q : at_ q (good q).
Proof. exists q. auto. Qed.
Lemma at_space c q s : is_space c = true -> at_ (c :: q) s -> at_ q s.
Proof. intros Hc (l & -> & E). exists l. split; [reflexivity|]. cbn [drop_spaces] in E. rewrite Hc in E. exact E. Qed.
Lemma at_sentry q s : at_ q s -> sentry false s = sentry false (good q).
Proof.
  intros (l & -> & E). unfold sentry. cbn [is_eof is_fail is_rest is_skipws orb negb andb].
  unfold set_rest. cbn [is_eof is_fail is_rest is_skipws]. rewrite E. reflexivity.
Qed.
Lemma at_get_uint m old q s : at_ q s -> get_uint m old s = get_uint m old (good q).
Proof. intros H. unfold get_uint. rewrite (at_sentry q s H). reflexivity. Qed.
Lemma at_get_bool old q s : at_ q s -> get_bool old s = get_bool old (good q).
Proof. intros H. unfold get_bool. rewrite (at_sentry q s H). reflexivity. Qed.
Lemma at_ok q s : at_ q s -> is_ok s = true.
Proof. intros (l & -> & _). reflexivity. Qed.

(** [R] reads the text [W x] as [x], into a variable that [fit]s it; on a
    truncated text it ends on a dead stream, and fails on a dead one. *)
Definition reads {A} (R : A -> istream -> A * istream) (W : A -> list Z) (fit : A -> A -> Prop) : Prop :=
  forall old x q r s, fit old x -> at_ q s -> prefix q (W x ++ r) ->
    (exists q' s', q = W x ++ q' /\ prefix q' r /\ R old s = (x, s') /\ at_ q' s') \/
    (exists v s', (exists c t, W x = q ++ c :: t) /\ R old s = (v, s') /\ dead s').
Definition fails {A} (R : A -> istream -> A * istream) : Prop :=
  forall old s, dead s -> exists v s', R old s = (v, s') /\ dead s' /\ (is_fail s = true -> is_fail s' = true).

Lemma reads_uint m : m <= 18446744073709551616 ->
  reads (get_uint m) (fun n => print_uint n ++ [32]) (fun _ n => 0 <= n < m).
Proof.
  intros Hm old n q r s Hn Hat P. rewrite (at_get_uint m old q s Hat).
  destruct (prefix_app q _ r P) as [(q' & -> & P')|(c & t & E)].
  - left. exists q', (good (32 :: q')). split; [reflexivity|]. split; [exact P'|].
    rewrite <- app_assoc. split; [|apply (at_space 32); [reflexivity|apply at_refl]].
    exact (get_uint_print m old [] n (32 :: q') true (Forall_nil _) (fun _ => eq_refl) Hn Hm eq_refl).
  - right.
    destruct (get_uint_cut m old [] n [32] q true (Forall_nil _) (fun _ => eq_refl) Hn Hm eq_refl
      (ex_intro _ (c :: t) E)) as [(q1 & Eq & P1 & G)|(v & s' & G & D & _)].
    + exists n, (mkis [] true false true). split; [exists c, t; exact E|].
      destruct (prefix_cons _ _ _ P1) as [-> |(q2 & -> & P2)]; [split; [exact G|split; reflexivity]|].
      exfalso. apply (f_equal (@List.length Z)) in E. rewrite Eq in E. cbn [app] in E.
      rewrite !app_length in E. cbn [List.length] in E. lia.
    + exists v, s'. split; [exists c, t; exact E|]. split; [exact G|exact D].
Qed.

Lemma fails_uint m : fails (get_uint m).
Proof.
  intros old s D. rewrite get_uint_dead by exact D. do 2 eexists. split; [reflexivity|].
  split; [apply dead_fail, D|]. intros _. apply set_state_fail.
Qed.

Lemma reads_bool : reads get_bool (fun b => print_bool b ++ [32]) (fun _ _ => True).
Proof.
  intros old b q r s _ Hat P. rewrite (at_get_bool old q s Hat).
  destruct (prefix_app q _ r P) as [(q' & -> & P')|(c & t & E)].
  - left. exists q', (good (32 :: q')). split; [reflexivity|]. split; [exact P'|].
    rewrite <- app_assoc. split; [|apply (at_space 32); [reflexivity|apply at_refl]].
    exact (get_bool_print old [] b (32 :: q') true (Forall_nil _) (fun _ => eq_refl) eq_refl).
  - right.
    destruct (get_bool_cut old [] b [32] q true (Forall_nil _) (fun _ => eq_refl) eq_refl
      (ex_intro _ (c :: t) E)) as [(q1 & Eq & P1 & G)|(v & s' & G & D & _)].
    + exists b, (mkis [] true false true). split; [exists c, t; exact E|].
      destruct (prefix_cons _ _ _ P1) as [-> |(q2 & -> & P2)]; [split; [exact G|split; reflexivity]|].
      exfalso. apply (f_equal (@List.length Z)) in E. rewrite Eq in E. cbn [app] in E.
      rewrite !app_length in E. cbn [List.length] in E. lia.
    + exists v, s'. split; [exists c, t; exact E|]. split; [exact G|exact D].
Qed.

Lemma fails_bool : fails get_bool.
Proof.
  intros old s D. rewrite get_bool_dead by exact D. do 2 eexists. split; [reflexivity|].
  split; [apply dead_fail, D|]. intros _. apply set_state_fail.
Qed.

(** Sequences. *)
Lemma cut_left {A} (a b q : list A) c t : a = q ++ c :: t -> exists c' t', a ++ b = q ++ c' :: t'.
Proof. intros ->. exists c, (t ++ b). rewrite <- app_assoc. reflexivity. Qed.
Lemma cut_right {A} (a b q : list A) c t : b = q ++ c :: t -> exists c' t', a ++ b = (a ++ q) ++ c' :: t'.
Proof. intros ->. exists c, t. rewrite app_assoc. reflexivity. Qed.

Definition alt_fit (_ x : alternation) : Prop := is_u32 (alt_count x).
Lemma reads_alt : reads read_alt (fun x => write_alt x ++ [32]) alt_fit.
Proof.
  intros old [b n] q r s Hx Hat P. unfold read_alt, write_alt in *. cbn [alt_start alt_count] in *.
  replace ((print_bool b ++ [32] ++ print_uint n) ++ [32]) with ((print_bool b ++ [32]) ++ (print_uint n ++ [32])) in *
    by (rewrite <- !app_assoc; reflexivity).
  destruct (reads_bool (alt_start old) b q ((print_uint n ++ [32]) ++ r) s I Hat) as [(q1 & s1 & -> & P1 & -> & H1)|(v & s' & (c & t & E) & -> & D)].
  - rewrite app_assoc. exact P.
  - destruct (reads_uint 4294967296 ltac:(lia) (alt_count old) n q1 r s1 Hx H1 P1) as [(q2 & s2 & -> & P2 & G & H2)|(v & s' & (c & t & E) & G & D)];
      fold get_unsigned in G; rewrite G.
    + left. exists q2, s2. rewrite app_assoc. auto.
    + right. do 2 eexists. split; [exact (cut_right _ _ _ _ _ E)|]. split; [reflexivity|exact D].
  - right. destruct (fails_uint 4294967296 (alt_count old) s' D) as (w & s2 & G & D2 & _).
    fold get_unsigned in G. rewrite G. do 2 eexists. split; [exact (cut_left _ _ _ _ _ E)|]. split; [reflexivity|exact D2].
Qed.
Lemma fails_alt : fails read_alt.
Proof.
  intros old s D. unfold read_alt. destruct (fails_bool (alt_start old) s D) as (b & s1 & -> & D1 & F1).
  destruct (fails_uint 4294967296 (alt_count old) s1 D1) as (n & s2 & G & D2 & F2). fold get_unsigned in G. rewrite G.
  do 2 eexists. split; [reflexivity|]. split; [exact D2|]. auto.
Qed.

Lemma reads_cells {A} (R : A -> istream -> A * istream) W fit :
  reads R W fit -> fails R -> reads (read_cells R) (flat_map W) (Forall2 fit).
Proof.
  intros HR HF old x q r s Hfit. revert q s. induction Hfit as [|o y old x Hy Hfit IH]; intros q s Hat P; cbn [flat_map read_cells].
  - left. exists q, s. split; [reflexivity|]. split; [exact P|]. split; [reflexivity|exact Hat].
  - cbn [flat_map] in P. rewrite <- app_assoc in P.
    destruct (HR o y q _ s Hy Hat P) as [(q1 & s1 & -> & P1 & -> & H1)|(v & s' & (c & t & E) & -> & D)].
    + destruct (IH q1 s1 H1 P1) as [(q2 & s2 & -> & P2 & G & H2)|(v & s' & (c & t & E) & G & D)]; rewrite G.
      * left. exists q2, s2. rewrite app_assoc. auto.
      * right. do 2 eexists. split; [exact (cut_right _ _ _ _ _ E)|]. split; [reflexivity|exact D].
    + right.
      assert (X : forall l s', dead s' -> exists v s2, read_cells R l s' = (v, s2) /\ dead s2).
      { clear -HF. induction l as [|a l IH]; intros s' D; cbn [read_cells]; [eauto|].
        destruct (HF a s' D) as (v & s2 & -> & D2 & _). destruct (IH s2 D2) as (w & s3 & -> & D3). eauto. }
      destruct (X old s' D) as (w & s2 & -> & D2).
      do 2 eexists. split; [exact (cut_left _ _ _ _ _ E)|]. split; [reflexivity|exact D2].
Qed.
Lemma fails_cells {A} (R : A -> istream -> A * istream) : fails R -> fails (read_cells R).
Proof.
  intros HF l. induction l as [|a l IH]; intros s D; cbn [read_cells]; [eauto|].
  destruct (HF a s D) as (v & s2 & -> & D2 & F2). destruct (IH s2 D2) as (w & s3 & -> & D3 & F3).
  do 2 eexists. split; [reflexivity|]. auto.
Qed.

Lemma reads_weaken {A} (R : A -> istream -> A * istream) W (fit fit' : A -> A -> Prop) :
  reads R W fit -> (forall a b, fit' a b -> fit a b) -> reads R W fit'.
Proof. intros H I old x q r s Hf. apply H. apply I, Hf. Qed.
Lemma Forall2_repeat {A B} (P : A -> B -> Prop) a l : Forall (P a) l -> Forall2 P (repeat a (List.length l)) l.
Proof. induction 1; cbn; constructor; auto. Qed.

(** A value of a feature, read to a zero of this feature. *)
Definition value_fit (old x : fval) : Prop := exists a, old = zero_of a /\ value_of a x.
Lemma reads_fval : reads read_fval write_fval value_fit.
Proof.
  intros old x q r s (a & -> & Hx) Hat P. destruct x as [n|l|l|l]; cbn [value_of write_fval] in *.
  - destruct Hx as [Hn Ha]. assert (zero_of a = VNum 0) as -> by (destruct a; try reflexivity; destruct Ha).
    cbn [read_fval].
    destruct (reads_uint 4294967296 ltac:(lia) 0 n q r s Hn Hat P) as [(q1 & s1 & -> & P1 & G & H1)|(v & s' & E & G & D)];
      fold get_unsigned in G; rewrite G; [left; exists q1, s1; auto|right; exists (VNum v), s'; auto].
  - destruct Hx as (-> & Hl & Hn). cbn [zero_of read_fval].
    assert (F : Forall2 alt_fit (repeat (mkalt false 0) 7) l) by (rewrite <- Hl; apply Forall2_repeat; exact Hn).
    destruct (reads_cells read_alt _ alt_fit reads_alt fails_alt _ l q r s F Hat P) as [(q1 & s1 & -> & P1 & G & H1)|(v & s' & E & G & D)];
      rewrite G; [left; exists q1, s1; auto|right; exists (VAlts v), s'; auto].
  - destruct Hx as (-> & Hl & Hn). cbn [zero_of read_fval].
    assert (F : Forall2 (fun _ n => 0 <= n < 4294967296) (repeat 0 7) l) by (rewrite <- Hl; apply Forall2_repeat; exact Hn).
    destruct (reads_cells _ _ _ (reads_uint 4294967296 ltac:(lia)) (fails_uint _) _ l q r s F Hat P) as [(q1 & s1 & -> & P1 & G & H1)|(v & s' & E & G & D)];
      fold get_unsigned in G; rewrite G; [left; exists q1, s1; auto|right; exists (VArr v), s'; auto].
  - destruct Hx as (-> & Hl & Hn). cbn [zero_of read_fval].
    change (print_uint (Z.of_nat (List.length l)) ++ [32] ++ flat_map (fun x => print_uint x ++ [32]) l)
      with (print_uint (Z.of_nat (List.length l)) ++ ([32] ++ flat_map (fun x => print_uint x ++ [32]) l)) in *.
    rewrite app_assoc in P |- *.
    assert (Hn0 : 0 <= Z.of_nat (List.length l) < 18446744073709551616) by lia.
    destruct (reads_uint 18446744073709551616 ltac:(lia) 0 (Z.of_nat (List.length l)) q (flat_map (fun x => print_uint x ++ [32]) l ++ r) s Hn0 Hat)
      as [(q1 & s1 & -> & P1 & G & H1)|(v & s' & (c & t & E) & G & D)]; [rewrite app_assoc; exact P| |]; fold get_size in G; rewrite G; clear G.
    + rewrite (at_ok q1 s1 H1). rewrite Nat2Z.id. cbn [List.length]. rewrite firstn_nil, Nat.sub_0_r. cbn [app].
      assert (F : Forall2 (fun _ n => 0 <= n < 4294967296) (repeat 0 (List.length l)) l) by (apply Forall2_repeat; exact Hn).
      destruct (reads_cells _ _ _ (reads_uint 4294967296 ltac:(lia)) (fails_uint _) _ l q1 r s1 F H1 P1) as [(q2 & s2 & -> & P2 & G & H2)|(v & s' & (c & t & E) & G & D)];
        fold get_unsigned in G; rewrite G.
      * left. exists q2, s2. split; [rewrite app_assoc; reflexivity|]. auto.
      * right. exists (VVec v), s'. split; [exact (cut_right _ _ _ _ _ E)|]. auto.
    + right. destruct (is_ok s') eqn:Ok'.
      * destruct (fails_cells _ (fails_uint 4294967296) (firstn (Z.to_nat v) [] ++ repeat 0 (Z.to_nat v - List.length (A:=Z) [])) s' D) as (w & s2 & G & D2 & _).
        fold get_unsigned in G. rewrite G. do 2 eexists. split; [exact (cut_left _ _ _ _ _ E)|]. split; [reflexivity|exact D2].
      * do 2 eexists. split; [exact (cut_left _ _ _ _ _ E)|]. split; [reflexivity|exact D].
Qed.
(** Reading a value from a dead stream fails. *)
Lemma fails_fval a : forall s, dead s ->
  exists v s', read_fval (zero_of a) s = (v, s') /\ dead s' /\ is_fail s' = true.
Proof.
  intros s D.
  assert (N : exists v s', (let '(n, s0) := get_unsigned 0 s in (VNum n, s0)) = (v, s') /\ dead s' /\ is_fail s' = true).
  { unfold get_unsigned. rewrite get_uint_dead by exact D. do 2 eexists. split; [reflexivity|].
    split; [apply dead_fail, D|apply set_state_fail]. }
  destruct a; try exact N; cbn [zero_of read_fval].
  - change (repeat (mkalt false 0) 7) with (mkalt false 0 :: repeat (mkalt false 0) 6). cbn [read_cells].
    unfold read_alt at 1. cbn [alt_start]. rewrite get_bool_dead by exact D.
    unfold get_unsigned at 1. rewrite get_uint_dead by apply dead_fail, D.
    destruct (fails_cells read_alt fails_alt (repeat (mkalt false 0) 6) _ (dead_fail _ (dead_fail _ D))) as (w & s2 & -> & D2 & F2).
    do 2 eexists. split; [reflexivity|]. split; [exact D2|]. apply F2. apply set_state_fail.
  - change (repeat 0 7) with (0 :: repeat 0 6). cbn [read_cells].
    unfold get_unsigned at 1. rewrite get_uint_dead by exact D.
    destruct (fails_cells _ (fails_uint 4294967296) (repeat 0 6) _ (dead_fail _ D)) as (w & s2 & G & D2 & F2).
    fold get_unsigned in G. rewrite G.
    do 2 eexists. split; [reflexivity|]. split; [exact D2|]. apply F2. apply set_state_fail.
  - unfold get_size. rewrite get_uint_dead by exact D. unfold is_ok. rewrite set_state_fail. cbn [negb].
    do 2 eexists. split; [reflexivity|]. split; [apply dead_fail, D|apply set_state_fail].
Qed.
Lemma fails_column a k : forall s, dead s ->
  exists v s', read_cells read_fval (repeat (zero_of a) k) s = (v, s') /\ dead s' /\ (k <> O -> is_fail s' = true) /\
    (is_fail s = true -> is_fail s' = true).
Proof.
  induction k as [|k IH]; intros s D; cbn [repeat read_cells].
  - do 2 eexists. split; [reflexivity|]. split; [exact D|]. split; [congruence|auto].
  - destruct (fails_fval a s D) as (v & s1 & -> & D1 & F1). destruct (IH s1 D1) as (w & s2 & -> & D2 & _ & F2).
    do 2 eexists. split; [reflexivity|]. split; [exact D2|]. split; intros _; apply F2, F1.
Qed.

(** Lines. *)
Lemma tlines_app a b : text_lines (a ++ b) = (text_lines a + text_lines b)%nat.
Proof. apply count_occ_app. Qed.
Lemma tlines_uint n : 0 <= n -> text_lines (print_uint n) = O.
Proof.
  intros H. apply count_occ_not_In. intros I. pose proof (print_uint_digits n H) as D.
  rewrite Forall_forall in D. specialize (D _ I). discriminate.
Qed.
Lemma tlines_flat {A} (W : A -> list Z) l : Forall (fun x => text_lines (W x) = O) l -> text_lines (flat_map W l) = O.
Proof. induction 1 as [|x l H _ IH]; [reflexivity|]. cbn [flat_map]. rewrite tlines_app, H, IH. reflexivity. Qed.
Lemma tlines_fval a v : value_of a v -> text_lines (write_fval v) = O.
Proof.
  assert (U : forall n, is_u32 n -> text_lines (print_uint n ++ [32]) = O).
  { intros n [H _]. rewrite tlines_app, tlines_uint by exact H. reflexivity. }
  destruct v as [n|l|l|l]; cbn [value_of write_fval].
  - intros [H _]. apply U, H.
  - intros (_ & _ & H). apply tlines_flat. apply Forall_forall. intros x Hx. rewrite Forall_forall in H.
    specialize (H x Hx). unfold write_alt. rewrite <- !app_assoc, !tlines_app.
    destruct H as [H _]. rewrite tlines_uint by exact H. destruct (alt_start x); reflexivity.
  - intros (_ & _ & H). apply tlines_flat. apply Forall_forall. intros x Hx. rewrite Forall_forall in H. apply U, H, Hx.
  - intros (_ & _ & H). rewrite !tlines_app, tlines_uint by lia. cbn [Nat.add].
    change (text_lines [32]) with O. cbn [Nat.add].
    apply tlines_flat. apply Forall_forall. intros x Hx. rewrite Forall_forall in H. apply U, H, Hx.
Qed.
Lemma tlines_cells a c : Forall (value_of a) c -> text_lines (flat_map write_fval c) = O.
Proof. intros H. apply tlines_flat. revert H. apply Forall_impl. apply tlines_fval. Qed.

(** The columns read from a dead stream: all empty but perhaps the first. *)
Lemma columns_dead n ss : forall s, dead s ->
  exists cs s', read_columns n ss s = (cs, s') /\ is_eof s' = true /\ List.length cs = List.length ss /\
    (is_fail s = true -> forall i, nth i cs [] = []) /\ (forall i, (1 <= i)%nat -> nth i cs [] = []).
Proof.
  induction ss as [|st ss IH]; intros s D; cbn [read_columns].
  - do 2 eexists. split; [reflexivity|]. split; [|split; [reflexivity|]].
    + destruct D as [He _]. destruct (is_ok s); [|exact He]. rewrite sentry_bad by (rewrite He; reflexivity).
      cbn. rewrite He. reflexivity.
    + split; [intros _ [|i]; reflexivity|intros [|i] _; reflexivity].
  - unfold is_ok. destruct (is_fail s) eqn:F; cbn [negb].
    + destruct (IH s D) as (cs & s' & -> & He & Hl & H1 & H2).
      do 2 eexists. split; [reflexivity|]. split; [exact He|]. split; [cbn; congruence|].
      specialize (H1 F). split; [intros _ [|i]; [reflexivity|apply H1]|intros [|i] _; [reflexivity|apply H1]].
    + destruct (fails_column (st_algo st) (Z.to_nat n) s D) as (v & s1 & -> & D1 & F1 & _).
      destruct (Z.to_nat n) as [|k] eqn:Ek.
      * (* no row: every column is empty *)
        assert (E0 : forall ss s, dead s -> exists cs s', read_columns n ss s = (cs, s') /\ is_eof s' = true /\
          List.length cs = List.length ss /\ forall i, nth i cs [] = []).
        { clear -Ek. induction ss as [|st ss IH]; intros s D; cbn [read_columns].
          - do 2 eexists. split; [reflexivity|]. split; [|split; [reflexivity|intros [|i]; reflexivity]].
            destruct D as [He _]. destruct (is_ok s); [|exact He]. rewrite sentry_bad by (rewrite He; reflexivity).
            cbn. rewrite He. reflexivity.
          - rewrite Ek. cbn [repeat read_cells]. destruct (IH s D) as (cs & s' & E & He & Hl & H).
            destruct (is_ok s); rewrite E; do 2 eexists; (split; [reflexivity|]); (split; [exact He|]);
              (split; [cbn; congruence|]); intros [|i]; try reflexivity; apply H. }
        destruct (E0 ss s1 D1) as (cs & s' & -> & He & Hl & H).
        do 2 eexists. split; [reflexivity|]. split; [exact He|]. split; [cbn; congruence|].
        split; [discriminate|]. intros [|i] Hi; [lia|]. apply H.
      * destruct (IH s1 D1) as (cs & s' & -> & He & Hl & H1 & _).
        do 2 eexists. split; [reflexivity|]. split; [exact He|]. split; [cbn; congruence|].
        split; [discriminate|]. intros [|i] Hi; [lia|]. cbn [nth]. apply H1. apply F1. discriminate.
Qed.

Lemma columns_cut n : forall ss cols q s,
  Forall2 (fun s c => List.length c = n /\ Forall (value_of (st_algo s)) c) ss cols ->
  at_ q s -> prefix q (flat_map write_column cols) ->
  exists cs s', read_columns (Z.of_nat n) ss s = (cs, s') /\ is_eof s' = true /\ List.length cs = List.length ss /\
    firstn (text_lines q) cs = firstn (text_lines q) cols /\
    (forall i, (text_lines q + 2 <= i)%nat -> nth i cs [] = []).
Proof.
  intros ss cols q s H. revert q s. induction H as [|st c ss cols [Hc Hv] H IH]; intros q s Hat P; cbn [read_columns].
  - cbn in P. apply prefix_nil in P. subst q. rewrite (at_ok _ _ Hat).
    do 2 eexists. split; [reflexivity|]. rewrite (at_sentry _ _ Hat). cbn.
    split; [reflexivity|]. split; [reflexivity|]. split; [reflexivity|]. intros [|i] _; reflexivity.
  - rewrite (at_ok _ _ Hat). rewrite Nat2Z.id.
    cbn [flat_map] in P. unfold write_column at 1 in P. rewrite <- !app_assoc in P.
    assert (F : Forall2 value_fit (repeat (zero_of (st_algo st)) n) c).
    { rewrite <- Hc. apply Forall2_repeat. revert Hv. apply Forall_impl. intros v Hv. exists (st_algo st). auto. }
    assert (RC : reads (read_cells read_fval) (flat_map write_fval) (fun o x => exists k, o = repeat (zero_of (st_algo st)) k /\ Forall2 value_fit o x)).
    { clear. intros old x q r s (k & Ek & Hfit). revert k Ek q s.
      induction Hfit as [|o y old x Hy Hfit IH]; intros k Ek q s Hat P; cbn [flat_map read_cells].
      - left. exists q, s. split; [reflexivity|]. split; [exact P|]. split; [reflexivity|exact Hat].
      - destruct k as [|k]; [discriminate|]. cbn [repeat] in Ek. assert (Eo : old = repeat (zero_of (st_algo st)) k) by congruence.
        cbn [flat_map] in P. rewrite <- app_assoc in P.
        destruct (reads_fval o y q _ s Hy Hat P) as [(q1 & s1 & -> & P1 & -> & H1)|(v & s' & (c & t & E) & -> & D)].
        + destruct (IH k Eo q1 s1 H1 P1) as [(q2 & s2 & -> & P2 & G & H2)|(v & s' & (c & t & E) & G & D)]; rewrite G.
          * left. exists q2, s2. rewrite app_assoc. auto.
          * right. do 2 eexists. split; [exact (cut_right _ _ _ _ _ E)|]. split; [reflexivity|exact D].
        + right. rewrite Eo. destruct (fails_column (st_algo st) k s' D) as (w & s2 & -> & D2 & _).
          do 2 eexists. split; [exact (cut_left _ _ _ _ _ E)|]. split; [reflexivity|exact D2]. }
    destruct (RC _ c q _ s (ex_intro _ n (conj eq_refl F)) Hat P) as [(q1 & s1 & -> & P1 & -> & H1)|(v & s1 & (x & t & E) & -> & D)].
    + destruct (prefix_cons _ _ _ P1) as [->|(q2 & -> & P2)].
      * (* the new line is missing *)
        assert (X : exists cs s', read_columns (Z.of_nat n) ss s1 = (cs, s') /\ is_eof s' = true /\
          List.length cs = List.length ss /\ (forall i, (1 <= i)%nat -> nth i cs [] = [])).
        { destruct H1 as (l & -> & El). cbn [drop_spaces] in El. clear -El.
          assert (S : sentry false (good l) = (false, mkis [] true true true)).
          { unfold sentry. cbn [is_eof is_fail is_rest is_skipws orb negb andb]. rewrite El. reflexivity. }
          assert (A : at_ [] (good l)) by (exists l; auto).
          destruct ss as [|st ss]; cbn [read_columns].
          - rewrite (at_ok _ _ A), S. cbn. do 2 eexists. split; [reflexivity|]. split; [reflexivity|].
            split; [reflexivity|]. intros [|i] _; reflexivity.
          - rewrite (at_ok _ _ A), Nat2Z.id.
            destruct n as [|k].
            + cbn [repeat read_cells].
              assert (E0 : forall ss, exists cs s', read_columns 0 ss (good l) = (cs, s') /\ is_eof s' = true /\
                List.length cs = List.length ss /\ forall i, nth i cs [] = []).
              { induction ss0 as [|st0 ss0 IH]; cbn [read_columns].
                - rewrite (at_ok _ _ A), S. cbn. do 2 eexists. split; [reflexivity|]. split; [reflexivity|].
                  split; [reflexivity|]. intros [|i]; reflexivity.
                - rewrite (at_ok _ _ A). cbn [Z.to_nat repeat read_cells].
                  destruct IH as (cs & s' & -> & He & Hl & Hi). do 2 eexists. split; [reflexivity|]. split; [exact He|].
                  split; [cbn; congruence|]. intros [|i]; [reflexivity|apply Hi]. }
              destruct (E0 ss) as (cs & s' & E & He & Hl & Hi). change (Z.of_nat 0) with 0. rewrite E.
              do 2 eexists. split; [reflexivity|]. split; [exact He|]. split; [cbn; congruence|].
              intros [|i] H; [lia|]. apply Hi.
            + assert (X : exists v s1, read_cells read_fval (repeat (zero_of (st_algo st)) (Datatypes.S k)) (good l) = (v, s1) /\
                dead s1 /\ is_fail s1 = true).
              { cbn [repeat read_cells].
                assert (Y : exists v s1, read_fval (zero_of (st_algo st)) (good l) = (v, s1) /\ dead s1 /\ is_fail s1 = true).
                { assert (G : forall m, get_uint m 0 (good l) = (0, mkis [] true true true)) by (intros m; unfold get_uint; rewrite S; reflexivity).
                  assert (Dd : dead (mkis [] true true true)) by (split; reflexivity).
                  destruct (st_algo st); cbn [zero_of read_fval];
                    try (unfold get_unsigned; rewrite G; do 2 eexists; split; [reflexivity|]; split; [exact Dd|reflexivity]).
                  - change (repeat (mkalt false 0) 7) with (mkalt false 0 :: repeat (mkalt false 0) 6). cbn [read_cells].
                    unfold read_alt at 1. cbn [alt_start alt_count]. unfold get_bool at 1. rewrite S.
                    unfold get_unsigned at 1. rewrite get_uint_dead by exact Dd.
                    destruct (fails_cells read_alt fails_alt (repeat (mkalt false 0) 6) _ (dead_fail _ Dd)) as (w & s2 & -> & D2 & F2).
                    do 2 eexists. split; [reflexivity|]. split; [exact D2|]. apply F2. apply set_state_fail.
                  - change (repeat 0 7) with (0 :: repeat 0 6). cbn [read_cells].
                    unfold get_unsigned at 1. rewrite G.
                    destruct (fails_cells _ (fails_uint 4294967296) (repeat 0 6) _ Dd) as (w & s2 & G2 & D2 & F2).
                    fold get_unsigned in G2. rewrite G2.
                    do 2 eexists. split; [reflexivity|]. split; [exact D2|]. apply F2. reflexivity.
                  - unfold get_size. rewrite G. cbn. do 2 eexists. split; [reflexivity|]. split; [exact Dd|reflexivity]. }
                destruct Y as (v & s1 & -> & D1 & F1). destruct (fails_column (st_algo st) k s1 D1) as (w & s2 & -> & D2 & _ & F2).
                do 2 eexists. split; [reflexivity|]. split; [exact D2|]. apply F2, F1. }
              destruct X as (v & s1 & -> & D1 & F1).
              destruct (columns_dead (Z.of_nat (Datatypes.S k)) ss s1 D1) as (cs & s' & -> & He & Hl & H1 & _).
              do 2 eexists. split; [reflexivity|]. split; [exact He|]. split; [cbn; congruence|].
              intros [|i] Hi; [lia|]. cbn [nth]. apply H1, F1. }
        destruct X as (cs & s' & -> & He & Hl & Hi).
        do 2 eexists. split; [reflexivity|]. split; [exact He|]. split; [cbn; congruence|].
        rewrite app_nil_r, (tlines_cells (st_algo st)) by exact Hv. split; [reflexivity|].
        intros [|i] H'; [lia|]. cbn [nth]. apply Hi. lia.
      * apply (at_space 10) in H1; [|reflexivity].
        destruct (IH q2 s1 H1 P2) as (cs & s' & -> & He & Hl & Hf & Hi).
        do 2 eexists. split; [reflexivity|]. split; [exact He|]. split; [cbn; congruence|].
        rewrite tlines_app, (tlines_cells (st_algo st)) by exact Hv.
        change (text_lines (10 :: q2)) with (Datatypes.S (text_lines q2)). cbn [Nat.add firstn].
        split; [congruence|]. intros [|i] H'; [lia|]. cbn [nth]. apply Hi. lia.
    + destruct (columns_dead (Z.of_nat n) ss s1 D) as (cs & s' & -> & He & Hl & _ & H2).
      do 2 eexists. split; [reflexivity|]. split; [exact He|]. split; [cbn; congruence|].
      assert (Lq : text_lines q = O).
      { pose proof (tlines_cells _ _ Hv) as L. rewrite E, tlines_app in L. lia. }
      rewrite Lq. split; [reflexivity|]. intros [|i] H'; [lia|]. cbn [nth]. apply H2. lia.
Qed.

Lemma sentry_number q n l : 0 <= n < 18446744073709551616 -> q <> [] -> prefix q (print_uint n ++ l) ->
  fst (sentry false (mkis q false false true)) = true.
Proof.
  intros Hn NQ [t E]. destruct (print_uint_cons n ltac:(lia)) as (c & l' & P & Hc). rewrite P in E.
  destruct q as [|d q]; [congruence|]. cbn [app] in E. assert (d = c) as -> by congruence.
  assert (is_space c = false) as Sp.
  { now apply digit_not_space. }
  unfold sentry. cbn [is_eof is_fail orb negb is_skipws andb is_rest drop_spaces]. rewrite Sp. reflexivity.
Qed.

Lemma datas_blank ss q : Forall (fun c => is_space c = true) q -> load_file (read_datas ss) q = UB.
Proof.
  intros H. unfold load_file, read_datas, open_stream, sentry. cbn [is_eof is_fail orb negb is_skipws andb is_rest].
  assert (drop_spaces q = []) as -> by (induction H as [|c q Hc H IH]; [reflexivity|]; cbn [drop_spaces]; rewrite Hc; exact IH).
  reflexivity.
Qed.

Lemma datas_file_prefix n ss cols q : ss <> [] -> table n ss cols -> q <> [] -> prefix q (write_datas cols) ->
  exists cols', load_file (read_datas ss) q = Ok cols' /\ List.length cols' = List.length ss /\
    firstn (text_lines q - 1) cols' = firstn (text_lines q - 1) cols /\
    (forall i, (text_lines q < i)%nat -> nth i cols' [] = []).
Proof.
  intros NE [Hn H] NQ P. unfold load_file, read_datas, write_datas, open_stream in *.
  assert (En : datas_size cols = Z.of_nat n).
  { inversion H as [|? ? ? ? [Hc _] H']; subst; [congruence|]. reflexivity. }
  rewrite En in P. assert (Hn0 : 0 <= Z.of_nat n < 18446744073709551616) by lia.
  rewrite (sentry_number q (Z.of_nat n) ([10] ++ flat_map write_column cols) Hn0 NQ P).
  destruct (get_uint_cut 18446744073709551616 0 [] (Z.of_nat n) ([10] ++ flat_map write_column cols) q true
    (Forall_nil _) (fun _ => eq_refl) Hn0 ltac:(lia) eq_refl P) as [(q1 & -> & P1 & G)|(v & s & G & D & _)];
    fold get_size in G; rewrite G; cbn [app bind].
  - rewrite tlines_app, tlines_uint by lia. cbn [Nat.add].
    destruct (prefix_cons _ _ _ P1) as [->|(q2 & -> & P2)].
    + cbn [null]. destruct (columns_dead (Z.of_nat n) ss (mkis [] true false true)) as (cs & s' & -> & He & Hl & _ & Hi); [split; reflexivity|].
      cbn [bind]. rewrite He. exists cs. split; [reflexivity|]. split; [exact Hl|]. split; [reflexivity|].
      intros i Hlt. apply Hi. lia.
    + cbn [null].
      destruct (columns_cut n ss cols q2 (good (10 :: q2)) H) as (cs & s' & -> & He & Hl & Hf & Hi);
        [apply (at_space 10); [reflexivity|apply at_refl]|exact P2|].
      cbn [bind]. rewrite He. exists cs. split; [reflexivity|]. split; [exact Hl|].
      change (text_lines (10 :: q2)) with (Datatypes.S (text_lines q2)). cbn [Nat.sub]. rewrite Nat.sub_0_r.
      split; [exact Hf|]. intros i Hlt. apply Hi. lia.
  - destruct (columns_dead v ss s D) as (cs & s' & -> & He & Hl & _ & Hi).
    cbn [bind]. rewrite He. exists cs. split; [reflexivity|]. split; [exact Hl|].
    destruct (prefix_app q (print_uint (Z.of_nat n)) _ P) as [(q1 & -> & P1)|(c & t & E)].
    + (* the size was read *)
      destruct (prefix_cons _ _ _ P1) as [->|(q2 & -> & P2)].
      * rewrite tlines_app, tlines_uint by lia. split; [reflexivity|]. intros i Hlt. apply Hi. change (text_lines []) with O in Hlt. lia.
      * exfalso. 
        pose proof (get_uint_print 18446744073709551616 0 [] (Z.of_nat n) (10 :: q2) true (Forall_nil _) (fun _ => eq_refl) Hn0 ltac:(lia) eq_refl) as G2.
        fold get_size in G2. cbn [app] in G2. rewrite G2 in G. assert (s = mkis (10 :: q2) false false true) by (cbn [null] in G; congruence).
        subst s. destruct D as [D _]. discriminate D.
    + assert (text_lines q = O) as ->.
      { pose proof (tlines_uint (Z.of_nat n) ltac:(lia)) as L. rewrite E, tlines_app in L. lia. }
      split; [reflexivity|]. intros i Hlt. apply Hi. lia.
Qed.

Lemma tlines_datas n ss cols : table n ss cols -> text_lines (write_datas cols) = Datatypes.S (List.length cols).
Proof.
  intros [_ H]. unfold write_datas. rewrite !tlines_app, tlines_uint by (destruct cols; cbn; lia).
  change (text_lines [10]) with 1%nat. cbn [Nat.add]. f_equal.
  induction H as [|st c ss cols [_ Hv] H IH]; [reflexivity|]. cbn [flat_map List.length]. unfold write_column at 1.
  rewrite !tlines_app, (tlines_cells _ _ Hv). change (text_lines [10]) with 1%nat. cbn [Nat.add]. rewrite IH. reflexivity.
Qed.

Lemma F2_length {A B} (P : A -> B -> Prop) l l' : Forall2 P l l' -> List.length l = List.length l'.
Proof. induction 1; cbn; congruence. Qed.

Lemma datas_file_round_trip n ss cols : ss <> [] -> table n ss cols ->
  load_file (read_datas ss) (write_datas cols) = Ok cols.
Proof.
  intros NE H.
  destruct (datas_file_prefix n ss cols (write_datas cols) NE H) as (cols' & E & Hl & Hf & _);
    [pose proof (tlines_datas n ss cols H) as L; intros E; rewrite E in L; discriminate L|exists []; rewrite app_nil_r; reflexivity|].
  rewrite E. f_equal. rewrite (tlines_datas n ss cols H) in Hf. cbn [Nat.sub] in Hf. rewrite Nat.sub_0_r in Hf.
  rewrite firstn_all in Hf. destruct H as [_ H]. apply F2_length in H. rewrite <- H in Hf.
  rewrite <- Hl in Hf. rewrite firstn_all in Hf. exact Hf.
Qed.
