(** Reading the feature table of a file of any bytes. *)
From Verif Require Import Base BaseProofs ProofTools StreamModel StreamProofs GlyphIoProofs DatasIoProofs RefuseSpec RefuseProofs GlyphFileSpec GlyphFileProofs
  StratModel DatasModel DatasIoModel DatasIoSpec TableTextSpec GlyphTextProofs.

Definition at_pos (t : list Z) (s : istream) : Prop := exists b, s = on t b /\ ended_at t b.
Lemma at_null r : at_pos r (on r (null r)).
Proof. exists (null r). split; [reflexivity|apply null_ended]. Qed.

(** * Numbers *)
Lemma sign_digit c : is_digit c = true -> is_space c = false /\ c <> 43 /\ c <> 45.
Proof. intros D. split; [apply digit_not_space, D|]. unfold is_digit in D. apply andb_true_iff in D. destruct D as [D1 D2]. apply Z.leb_le in D1, D2. lia. Qed.
Lemma cut_exists t : exists sign ds r, cut_at t sign ds r.
Proof.
  destruct (drop_split t) as (p & B & E & S). destruct (span_int (drop_spaces t)) as [[neg ds] r] eqn:Es.
  destruct (span_int_inv _ _ _ _ Es) as (sign & Hs & E2 & Hr & _). exists sign, ds, r, p. split; [exact B|]. split; [exact Hs|]. split; [rewrite <- E2; exact E|].
  destruct r as [|c r]; [exact I|]. split; [exact Hr|]. intros -> ->. rewrite E2 in S, Es. cbn [app] in S, Es. split; [exact S|].
  split; intros ->; cbn [span_int] in Es; destruct (span_digits r) as [ds' r'] eqn:Ed; cbn in Es; injection Es as E1 E3 E4; subst;
    apply span_digits_inv in Ed; destruct Ed as (El & _ & _); cbn [app] in El; apply (f_equal (@List.length Z)) in El; cbn [List.length] in El; lia.
Qed.
Lemma cut_span t sign ds r : cut_at t sign ds r -> drop_spaces t = sign ++ ds ++ r /\ span_int (sign ++ ds ++ r) = (minus sign, ds, r).
Proof.
  intros (p & B & Hs & -> & Hr). assert (Sr : stops is_digit r) by (destruct r as [|c r]; [exact I|apply Hr]). split.
  - destruct (sign ++ ds ++ r) as [|c l] eqn:E; [rewrite app_nil_r, <- (app_nil_r p); apply drop_spaces_app; [apply blank_spaces, B|exact I]|].
    apply drop_spaces_app; [apply blank_spaces, B|]. cbn. destruct Hs as [[->|[->| ->]] D]; cbn [app] in E; [|injection E as <- _; reflexivity|injection E as <- _; reflexivity].
    destruct ds as [|d ds]; cbn [app] in E; [|injection E as <- _; apply digit_not_space, D; left; reflexivity].
    subst r. destruct Hr as [_ Hr]. apply Hr; reflexivity.
  - destruct ds as [|d ds]; [|apply span_int_signed; auto; left; discriminate]. destruct sign as [|c sign]; [|apply span_int_signed; auto; right; left; discriminate].
    destruct r as [|c r]; [reflexivity|]. cbn [app]. destruct Hr as [Hd Hr]. destruct (Hr eq_refl eq_refl) as (_ & N1 & N2). unfold span_int, minus. apply Z.eqb_neq in N1, N2. rewrite N1, N2. cbn [orb].
    cbn [span_digits]. rewrite Hd. reflexivity.
Qed.
Lemma cut_unique t sign ds r sign' ds' r' : cut_at t sign ds r -> cut_at t sign' ds' r' -> minus sign = minus sign' /\ ds = ds' /\ r = r'.
Proof. intros H H'. apply cut_span in H, H'. destruct H as [E1 E2], H' as [E3 E4]. rewrite E1 in E3. rewrite E3 in E2. rewrite E2 in E4. injection E4 as <- <- <-. auto. Qed.
Lemma cut_sentry t sign ds r b : cut_at t sign ds r -> ended_at t b ->
  (sign ++ ds ++ r = [] /\ exists s, sentry false (on t b) = (false, s) /\ dead s true) \/
  (sign ++ ds ++ r <> [] /\ sentry false (on t b) = (true, on (sign ++ ds ++ r) false)).
Proof.
  intros H He. destruct (cut_span _ _ _ _ H) as [E _]. destruct b.
  - rewrite (He eq_refl) in *. left. cbn in E. split; [symmetry; exact E|]. eexists. split; [reflexivity|split; reflexivity].
  - unfold sentry. cbn [is_eof is_fail orb negb is_skipws andb is_rest]. rewrite E. destruct (sign ++ ds ++ r) as [|c l]; [left; split; [reflexivity|]; eexists; split; [reflexivity|split; reflexivity]|right].
    split; [discriminate|reflexivity].
Qed.

(** * Readers *)
Record reader {A} (read : A -> istream -> A * istream) (reads : list Z -> A -> list Z -> Prop) (stop : list Z -> A -> bool -> Prop) (zero : A) : Prop := {
  rd_run : forall t v r s, reads t v r -> at_pos t s -> exists s', read zero s = (v, s') /\ at_pos r s';
  rd_stop : forall t v b s, stop t v b -> at_pos t s -> exists s', read zero s = (v, s') /\ dead s' b;
  rd_cases : forall t, (exists v r, reads t v r) \/ exists v b, stop t v b;
  rd_dead : forall x s b, dead s b -> exists s', read x s = (x, s') /\ dead s' b }.

Lemma sentry_dead s b : dead s b -> exists s', sentry false s = (false, s') /\ dead s' b.
Proof. intros [F E]. rewrite sentry_bad by (rewrite F; apply orb_true_r). eexists. split; [reflexivity|]. split; [apply set_state_fail|]. cbn. rewrite E. apply orb_false_r. Qed.
Lemma null_iff (r : list Z) b : (b = true <-> r = []) -> b = null r.
Proof. intros H. destruct r, b; try reflexivity; [apply (proj2 H); reflexivity|discriminate (proj1 H eq_refl)]. Qed.
Lemma null_nil (r : list Z) : null r = true <-> r = [].
Proof. destruct r; cbn; split; intros X; reflexivity || discriminate X. Qed.
Lemma uint_reader m : 0 < m -> reader (get_uint m) (reads_uint m) (stops_uint m) 0.
Proof.
  intros Hm. split.
  - intros t v r s (sign & ds & C & N & L & Ev) (b & -> & He). unfold get_uint. destruct (cut_sentry _ _ _ _ _ C He) as [[E _]|[_ E]].
    { exfalso. apply app_eq_nil in E. destruct E as [_ E]. apply app_eq_nil in E. destruct (N (proj1 E)). }
    rewrite E. cbn [is_rest]. rewrite (proj2 (cut_span _ _ _ _ C)). destruct ds as [|d ds]; [congruence|]. cbn [null].
    destruct (Z.leb_spec m (digits_value (d :: ds))); [lia|]. exists (on r (null r)). split; [|apply at_null]. subst v.
    destruct C as (p & _ & [[->|[->| ->]] _] & _); reflexivity.
  - intros t v b s (sign & ds & r & C & V & Eb) (b' & -> & He). apply null_iff in Eb. subst b. unfold get_uint. destruct (cut_sentry _ _ _ _ _ C He) as [[E (s & Es & D)]|[_ E]].
    + apply app_eq_nil in E. destruct E as [_ E]. apply app_eq_nil in E. destruct E as [-> ->]. rewrite Es. destruct V as [[_ ->]|[V _]]; [|destruct (V eq_refl)]. exists s. split; [reflexivity|exact D].
    + rewrite E. cbn [is_rest]. rewrite (proj2 (cut_span _ _ _ _ C)). destruct V as [[-> ->]|(N & L & ->)].
      * cbn [null]. eexists. split; [reflexivity|split; reflexivity || (cbn; now rewrite orb_false_r)].
      * destruct ds as [|d ds]; [congruence|]. cbn [null]. rewrite (proj2 (Z.leb_le _ _) L). eexists. split; [reflexivity|split; reflexivity || (cbn; now rewrite orb_false_r)].
  - intros t. destruct (cut_exists t) as (sign & ds & r & C). destruct ds as [|d ds].
    + right. exists 0, (null r), sign, [], r. split; [exact C|]. split; [left; auto|]. apply null_nil.
    + destruct (Z.lt_ge_cases (digits_value (d :: ds)) m) as [L|L].
      * left. eexists. exists r, sign, (d :: ds). split; [exact C|]. split; [discriminate|]. split; [exact L|reflexivity].
      * right. exists (m - 1), (null r), sign, (d :: ds), r. split; [exact C|]. split; [right; split; [discriminate|auto]|]. apply null_nil.
  - intros x s b D. unfold get_uint. destruct (sentry_dead s b D) as (s' & -> & D'). eauto.
Qed.
Lemma digits_pos ds : (forall c, In c ds -> is_digit c = true) -> 0 <= digits_value ds.
Proof.
  assert (G : forall l a, 0 <= a -> (forall c, In c l -> is_digit c = true) -> 0 <= fold_left (fun a d => a * 10 + (d - 48)) l a).
  { induction l as [|d l IH]; intros a Ha H; [exact Ha|]. cbn [fold_left]. apply IH; [|intros c Hc; apply H; right; exact Hc].
    specialize (H d (or_introl eq_refl)). unfold is_digit in H. apply andb_true_iff in H. destruct H as [H _]. apply Z.leb_le in H. lia. }
  apply G. lia.
Qed.
Lemma flag_reader : reader get_bool reads_flag stops_flag false.
Proof.
  assert (Dm : forall sign ds, signed sign ds -> sign = [45] \/ sign <> [45]) by (intros sign ds [[->|[->| ->]] _]; auto; right; discriminate).
  split.
  - intros t v r s (sign & ds & C & N & L & Ev) (b & -> & He). unfold get_bool. destruct (cut_sentry _ _ _ _ _ C He) as [[E _]|[_ E]].
    { exfalso. apply app_eq_nil in E. destruct E as [_ E]. apply app_eq_nil in E. destruct (N (proj1 E)). }
    rewrite E. cbn [is_rest]. rewrite (proj2 (cut_span _ _ _ _ C)). destruct ds as [|d ds]; [congruence|]. cbn [null]. exists (on r (null r)). split; [|apply at_null].
    destruct L as [L|[L L2]].
    + rewrite L. cbn [Z.eqb]. assert (v = false) as -> by (destruct v; [|reflexivity]; apply (proj1 Ev) in L || (pose proof (proj1 Ev eq_refl); lia)). reflexivity.
    + rewrite L. assert (v = true) as -> by (apply Ev; exact L). destruct C as (p & _ & [[->|[->| ->]] _] & _); [reflexivity|reflexivity|congruence].
  - intros t v b s (sign & ds & r & C & V & Eb) (b' & -> & He). apply null_iff in Eb. subst b. unfold get_bool. destruct (cut_sentry _ _ _ _ _ C He) as [[E (s & Es & D)]|[_ E]].
    + apply app_eq_nil in E. destruct E as [_ E]. apply app_eq_nil in E. destruct E as [-> ->]. rewrite Es. destruct V as [[_ ->]|[V _]]; [|destruct (V eq_refl)]. exists s. split; [reflexivity|exact D].
    + rewrite E. cbn [is_rest]. rewrite (proj2 (cut_span _ _ _ _ C)). destruct V as [[-> ->]|(N & L & ->)].
      * cbn [null]. eexists. split; [reflexivity|split; reflexivity || (cbn; now rewrite orb_false_r)].
      * destruct ds as [|d ds]; [congruence|]. cbn [null]. destruct (Z.eqb_spec (digits_value (d :: ds)) 0) as [Z0|Z0]; [destruct (L (or_introl Z0))|].
        destruct (Z.eqb_spec (digits_value (d :: ds)) 1) as [Z1|Z1]; cbn [andb].
        -- destruct C as (p & _ & Hs & _). destruct (Dm _ _ Hs) as [->|Hm]; [|destruct (L (or_intror (conj Z1 Hm)))]. cbn [minus negb]. eexists. split; [reflexivity|split; reflexivity || (cbn; now rewrite orb_false_r)].
        -- eexists. split; [reflexivity|split; reflexivity || (cbn; now rewrite orb_false_r)].
  - intros t. destruct (cut_exists t) as (sign & ds & r & C). destruct ds as [|d ds].
    + right. exists false, (null r), sign, [], r. split; [exact C|]. split; [left; auto|]. apply null_nil.
    + assert (K : is_flag sign (d :: ds) \/ ~ is_flag sign (d :: ds)).
      { unfold is_flag. destruct (Z.eq_dec (digits_value (d :: ds)) 0) as [Z0|Z0]; [left; left; exact Z0|]. destruct (Z.eq_dec (digits_value (d :: ds)) 1) as [Z1|Z1]; [|right; intros [X|[X _]]; auto].
        destruct C as (p & _ & Hs & _). destruct (Dm _ _ Hs) as [Hm|Hm]; [right; intros [X|[_ X]]; auto|left; right; auto]. }
      destruct K as [K|K].
      * left. exists (digits_value (d :: ds) =? 1), r, sign, (d :: ds). split; [exact C|]. split; [discriminate|]. split; [exact K|]. apply Z.eqb_eq.
      * right. exists true, (null r), sign, (d :: ds), r. split; [exact C|]. split; [right; split; [discriminate|auto]|]. apply null_nil.
  - intros x s b D. unfold get_bool. destruct (sentry_dead s b D) as (s' & -> & D'). eauto.
Qed.

(** * Values *)
Lemma row_dead {A} (read : A -> istream -> A * istream) reads stop zero : reader read reads stop zero -> forall l s b, dead s b ->
  exists s', read_cells read l s = (l, s') /\ dead s' b.
Proof.
  intros R. induction l as [|x l IH]; intros s b D; cbn [read_cells]; [eauto|]. destruct (rd_dead _ _ _ _ R x s b D) as (s1 & -> & D1). destruct (IH s1 b D1) as (s2 & -> & D2). eauto.
Qed.
Lemma row_run {A} (read : A -> istream -> A * istream) reads stop zero : reader read reads stop zero -> forall k t l r, row_reads reads k t l r -> forall s, at_pos t s ->
  exists s', read_cells read (repeat zero k) s = (l, s') /\ at_pos r s'.
Proof.
  intros R k t l r. induction 1 as [t|k t v r l r' H1 H IH]; intros s Hs; cbn [repeat read_cells]; [eauto|].
  destruct (rd_run _ _ _ _ R _ _ _ _ H1 Hs) as (s1 & -> & P1). destruct (IH s1 P1) as (s2 & -> & P2). eauto.
Qed.
Lemma row_stop {A} (read : A -> istream -> A * istream) reads stop zero : reader read reads stop zero -> forall k t l b, row_stops reads stop zero k t l b -> forall s, at_pos t s ->
  exists s', read_cells read (repeat zero k) s = (l, s') /\ dead s' b.
Proof.
  intros R k t l b. induction 1 as [k t v b H|k t v r l b H1 H IH]; intros s Hs; cbn [repeat read_cells].
  - destruct (rd_stop _ _ _ _ R _ _ _ _ H Hs) as (s1 & -> & P1). destruct (row_dead _ _ _ _ R (repeat zero k) s1 b P1) as (s2 & -> & P2). eauto.
  - destruct (rd_run _ _ _ _ R _ _ _ _ H1 Hs) as (s1 & -> & P1). destruct (IH s1 P1) as (s2 & -> & P2). eauto.
Qed.
Lemma row_cases {A} (read : A -> istream -> A * istream) reads stop zero : reader read reads stop zero -> forall k t,
  (exists l r, row_reads reads k t l r) \/ exists l b, row_stops reads stop zero k t l b.
Proof.
  intros R. induction k as [|k IH]; intros t; [left; exists [], t; constructor|]. destruct (rd_cases _ _ _ _ R t) as [(v & r & H)|(v & b & H)].
  - destruct (IH r) as [(l & r' & H')|(l & b & H')]; [left; exists (v :: l), r'; econstructor; eassumption|right; exists (v :: l), b; eapply rs_later; eassumption].
  - right. exists (v :: repeat zero k), b. constructor. exact H.
Qed.
Lemma u32_reader : reader get_unsigned u32_reads u32_stops 0.
Proof. apply uint_reader. lia. Qed.
Lemma size_reader : reader get_size (reads_uint 18446744073709551616) (stops_uint 18446744073709551616) 0.
Proof. apply uint_reader. lia. Qed.
Lemma alt_reader : reader read_alt alt_reads alt_stops (mkalt false 0).
Proof.
  split.
  - intros t [a n] r s (r1 & H1 & H2) Hs. unfold read_alt. cbn [alt_start alt_count] in *. destruct (rd_run _ _ _ _ flag_reader _ _ _ _ H1 Hs) as (s1 & -> & P1).
    destruct (rd_run _ _ _ _ u32_reader _ _ _ _ H2 P1) as (s2 & -> & P2). eauto.
  - intros t [a n] b s H Hs. unfold read_alt, alt_stops in *. cbn [alt_start alt_count] in *. destruct H as [[H1 ->]|(r1 & H1 & H2)].
    + destruct (rd_stop _ _ _ _ flag_reader _ _ _ _ H1 Hs) as (s1 & -> & P1). destruct (rd_dead _ _ _ _ u32_reader 0 _ _ P1) as (s2 & -> & P2). eauto.
    + destruct (rd_run _ _ _ _ flag_reader _ _ _ _ H1 Hs) as (s1 & -> & P1). destruct (rd_stop _ _ _ _ u32_reader _ _ _ _ H2 P1) as (s2 & -> & P2). eauto.
  - intros t. destruct (rd_cases _ _ _ _ flag_reader t) as [(v & r & H)|(v & b & H)]; [|right; exists (mkalt v 0), b; left; auto].
    destruct (rd_cases _ _ _ _ u32_reader r) as [(n & r' & H')|(n & b & H')]; [left; exists (mkalt v n), r', r; auto|right; exists (mkalt v n), b; right; exists r; auto].
  - intros [a n] s b D. unfold read_alt. cbn [alt_start alt_count]. destruct (rd_dead _ _ _ _ flag_reader a _ _ D) as (s1 & -> & P1). destruct (rd_dead _ _ _ _ u32_reader n _ _ P1) as (s2 & -> & P2). eauto.
Qed.
Lemma at_ok t s : at_pos t s -> is_ok s = true.
Proof. intros (b & -> & _). reflexivity. Qed.
Lemma dead_ok s b : dead s b -> is_ok s = false.
Proof. intros [F _]. unfold is_ok. rewrite F. reflexivity. Qed.
Lemma value_reader a : reader read_fval (value_reads a) (value_stops a) (no_value a).
Proof.
  assert (RD : forall x s b, dead s b -> exists s', read_fval x s = (x, s') /\ dead s' b).
  { intros [n|l|l|l] s b D; unfold read_fval.
    - destruct (rd_dead _ _ _ _ u32_reader n _ _ D) as (s1 & -> & P1). eauto.
    - destruct (row_dead _ _ _ _ alt_reader l _ _ D) as (s1 & -> & P1). eauto.
    - destruct (row_dead _ _ _ _ u32_reader l _ _ D) as (s1 & -> & P1). eauto.
    - destruct (rd_dead _ _ _ _ size_reader 0 _ _ D) as (s1 & -> & P1). rewrite (dead_ok _ _ P1). eauto. }
  assert (RN : reader read_fval (fun t v r => exists n, v = VNum n /\ u32_reads t n r) (fun t v b => exists n, v = VNum n /\ u32_stops t n b) (VNum 0)).
  { split; [| | |exact RD].
    - intros t v r s (n & -> & H) Hs. unfold read_fval. destruct (rd_run _ _ _ _ u32_reader _ _ _ _ H Hs) as (s1 & -> & P1). eauto.
    - intros t v b s (n & -> & H) Hs. unfold read_fval. destruct (rd_stop _ _ _ _ u32_reader _ _ _ _ H Hs) as (s1 & -> & P1). eauto.
    - intros t. destruct (rd_cases _ _ _ _ u32_reader t) as [(v & r & H)|(v & b & H)]; [left; exists (VNum v), r; eauto|right; exists (VNum v), b; eauto]. }
  destruct a; try exact RN; (split; [| | |exact RD]); cbn [value_reads value_stops no_value].
  - intros t v r s (l & -> & H) Hs. unfold read_fval. destruct (row_run _ _ _ _ alt_reader _ _ _ _ H _ Hs) as (s1 & -> & P1). eauto.
  - intros t v b s (l & -> & H) Hs. unfold read_fval. destruct (row_stop _ _ _ _ alt_reader _ _ _ _ H _ Hs) as (s1 & -> & P1). eauto.
  - intros t. destruct (row_cases _ _ _ _ alt_reader 7 t) as [(l & r & H)|(l & b & H)]; [left; exists (VAlts l), r; eauto|right; exists (VAlts l), b; eauto].
  - intros t v r s (l & -> & H) Hs. unfold read_fval. destruct (row_run _ _ _ _ u32_reader _ _ _ _ H _ Hs) as (s1 & -> & P1). eauto.
  - intros t v b s (l & -> & H) Hs. unfold read_fval. destruct (row_stop _ _ _ _ u32_reader _ _ _ _ H _ Hs) as (s1 & -> & P1). eauto.
  - intros t. destruct (row_cases _ _ _ _ u32_reader 7 t) as [(l & r & H)|(l & b & H)]; [left; exists (VArr l), r; eauto|right; exists (VArr l), b; eauto].
  - intros t v r s (n & r1 & l & -> & H1 & H) Hs. unfold read_fval. destruct (rd_run _ _ _ _ size_reader _ _ _ _ H1 Hs) as (s1 & -> & P1). rewrite (at_ok _ _ P1).
    rewrite firstn_nil, Nat.sub_0_r. cbn [app]. destruct (row_run _ _ _ _ u32_reader _ _ _ _ H _ P1) as (s2 & -> & P2). eauto.
  - intros t v b s [(n & -> & H)|(n & r1 & l & -> & H1 & H)] Hs; unfold read_fval.
    + destruct (rd_stop _ _ _ _ size_reader _ _ _ _ H Hs) as (s1 & -> & P1). rewrite (dead_ok _ _ P1). eauto.
    + destruct (rd_run _ _ _ _ size_reader _ _ _ _ H1 Hs) as (s1 & -> & P1). rewrite (at_ok _ _ P1).
      rewrite firstn_nil, Nat.sub_0_r. cbn [app]. destruct (row_stop _ _ _ _ u32_reader _ _ _ _ H _ P1) as (s2 & -> & P2). eauto.
  - intros t. destruct (rd_cases _ _ _ _ size_reader t) as [(n & r1 & H1)|(n & b & H)]; [|right; exists (VVec []), b; left; eauto].
    destruct (row_cases _ _ _ _ u32_reader (Z.to_nat n) r1) as [(l & r & H)|(l & b & H)]; [left; exists (VVec l), r, n, r1, l; auto|right; exists (VVec l), b; right; exists n, r1, l; auto].
Qed.

(** * The table *)
Lemma columns_dead n : forall ss s b, dead s b -> exists s', read_columns n ss s = (repeat [] (List.length ss), s') /\ dead s' b.
Proof.
  induction ss as [|st ss IH]; intros s b D; cbn [read_columns]; rewrite (dead_ok _ _ D); [eauto|]. destruct (IH s b D) as (s' & -> & D'). eauto.
Qed.
Lemma columns_run n ss t cols b : columns_text (Z.to_nat n) ss t cols b -> forall s, at_pos t s -> exists s', read_columns n ss s = (cols, s') /\ is_eof s' = b.
Proof.
  induction 1 as [t b E|st ss t c b H|st ss t c r cs b H1 H IH]; intros s Hs; cbn [read_columns]; rewrite (at_ok _ _ Hs).
  - eexists. split; [reflexivity|]. destruct Hs as (b' & -> & He). destruct b'; [rewrite (He eq_refl) in *; cbn; symmetry; apply E; intros x []|].
    unfold sentry. cbn [is_eof is_fail orb negb is_skipws andb is_rest]. destruct (drop_split t) as (p & B & Et & S). destruct (drop_spaces t) as [|c l]; cbn [null snd].
    + cbn. symmetry. apply E. rewrite app_nil_r in Et. rewrite Et. exact B.
    + cbn. destruct b; [|reflexivity]. exfalso. pose proof (proj1 E eq_refl) as X. specialize (X c). cbn in S. rewrite X in S; [discriminate S|]. rewrite Et. apply in_or_app. right. left. reflexivity.
  - destruct (row_stop _ _ _ _ (value_reader (st_algo st)) _ _ _ _ H _ Hs) as (s1 & E1 & P1). change (zero_of (st_algo st)) with (no_value (st_algo st)). rewrite E1.
    destruct (columns_dead n ss s1 b P1) as (s2 & -> & P2). exists s2. split; [reflexivity|apply P2].
  - destruct (row_run _ _ _ _ (value_reader (st_algo st)) _ _ _ _ H1 _ Hs) as (s1 & E1 & P1). change (zero_of (st_algo st)) with (no_value (st_algo st)). rewrite E1.
    destruct (IH s1 P1) as (s2 & -> & P2). eauto.
Qed.
Lemma columns_exist n : forall ss t, exists cols b, columns_text n ss t cols b.
Proof.
  induction ss as [|st ss IH]; intros t.
  - exists [], (null (drop_spaces t)). constructor. destruct (drop_split t) as (p & B & Et & S). destruct (drop_spaces t) as [|c l]; cbn [null].
    + rewrite app_nil_r in Et. split; [intros _; rewrite Et; exact B|reflexivity].
    + split; [intros X; discriminate X|]. intros X. specialize (X c). cbn in S. rewrite X in S; [discriminate S|]. rewrite Et. apply in_or_app. right. left. reflexivity.
  - destruct (row_cases _ _ _ _ (value_reader (st_algo st)) n t) as [(c & r & H)|(c & b & H)].
    + destruct (IH r) as (cs & b & H'). exists (c :: cs), b. eapply ct_more; eassumption.
    + exists (c :: repeat [] (List.length ss)), b. apply ct_stop, H.
Qed.
Lemma blank_dec t : blank t \/ ~ blank t.
Proof.
  destruct (drop_split t) as (p & B & Et & S). destruct (drop_spaces t) as [|c l].
  - left. rewrite app_nil_r in Et. rewrite Et. exact B.
  - right. intros X. specialize (X c). cbn in S. rewrite X in S; [discriminate S|]. rewrite Et. apply in_or_app. right. left. reflexivity.
Qed.
Lemma table_exist ss t : ~ blank t -> exists cols b, table_text ss t cols b.
Proof.
  intros N. destruct (rd_cases _ _ _ _ size_reader t) as [(n & r & H)|(n & b & H)].
  - destruct (columns_exist (Z.to_nat n) ss r) as (cols & b & H'). exists cols, b. eapply tt_size; eassumption.
  - exists (repeat [] (List.length ss)), b. eapply tt_none; eassumption.
Qed.
Lemma table_not_blank ss t cols b : table_text ss t cols b -> ~ blank t.
Proof.
  destruct 1 as [t n r cols b (sign & ds & (p & _ & Hs & -> & _) & N & _) _|t n b N _]; [|exact N]. intros X. destruct ds as [|d ds]; [congruence|].
  specialize (X d). destruct Hs as [_ D]. specialize (D d (or_introl eq_refl)). apply digit_not_space in D. rewrite X in D; [discriminate D|].
  apply in_or_app. right. apply in_or_app. right. left. reflexivity.
Qed.
Lemma table_run ss t cols b : table_text ss t cols b -> exists s, read_datas ss (open_stream t) = Ok (cols, s) /\ is_eof s = b.
Proof.
  intros H. pose proof (table_not_blank _ _ _ _ H) as NB. unfold read_datas, open_stream.
  assert (P : at_pos t (on t false)) by (exists false; split; [reflexivity|intros X; discriminate X]).
  assert (fst (sentry false (on t false)) = true) as ->.
  { unfold sentry. cbn [is_eof is_fail orb negb is_skipws andb is_rest]. destruct (drop_split t) as (p & B & Et & S). destruct (drop_spaces t) as [|c l]; [|reflexivity].
    exfalso. apply NB. rewrite app_nil_r in Et. rewrite Et. exact B. }
  destruct H as [t n r cols b H1 H2|t n b _ H].
  - destruct (rd_run _ _ _ _ size_reader _ _ _ _ H1 P) as (s1 & -> & P1). destruct (columns_run _ _ _ _ _ H2 s1 P1) as (s2 & -> & E). eauto.
  - destruct (rd_stop _ _ _ _ size_reader _ _ _ _ H P) as (s1 & -> & P1). destruct (columns_dead n ss s1 b P1) as (s2 & -> & P2). exists s2. split; [reflexivity|apply P2].
Qed.
Lemma table_outcome ss text :
  blank text /\ load_file (read_datas ss) text = UB \/
  ~ blank text /\ exists cols b, table_text ss text cols b /\ (forall cols' b', table_text ss text cols' b' -> cols = cols' /\ b = b') /\
    load_file (read_datas ss) text = (if b then Ok cols else Throw ExReadFile).
Proof.
  destruct (blank_dec text) as [B|N]; [left; split; [exact B|]|right; split; [exact N|]].
  - apply datas_blank. apply Forall_forall. exact B.
  - destruct (table_exist ss text N) as (cols & b & H). exists cols, b. split; [exact H|]. destruct (table_run _ _ _ _ H) as (s & E & Es). split.
    + intros cols' b' H'. destruct (table_run _ _ _ _ H') as (s' & E' & Es'). rewrite E in E'. injection E' as <- <-. split; [reflexivity|]. rewrite <- Es, <- Es'. reflexivity.
    + unfold load_file. rewrite E. cbn [bind]. rewrite Es. reflexivity.
Qed.

(** * Values and whole tables *)
Lemma uint_bound m t v r : 0 < m -> reads_uint m t v r -> 0 <= v < m.
Proof.
  intros Hm (sign & ds & (p & _ & Hs & _) & _ & L & ->). pose proof (digits_pos ds (proj2 Hs)). destruct Hs as [[->|[->| ->]] _]; cbn iota; lia.
Qed.
Lemma uint_stop_bound m t v b : 0 < m -> stops_uint m t v b -> 0 <= v < m.
Proof. intros Hm (sign & ds & r & _ & [[_ ->]|(_ & _ & ->)] & _); lia. Qed.
Lemma row_reads_all {A} (reads : list Z -> A -> list Z -> Prop) (Q : A -> Prop) k t l r : (forall t v r, reads t v r -> Q v) -> row_reads reads k t l r -> List.length l = k /\ Forall Q l.
Proof. intros HQ. induction 1 as [t|k t v r l r' H1 H [L F]]; [split; [reflexivity|constructor]|]. split; [cbn [List.length]; lia|]. constructor; [eapply HQ; eassumption|exact F]. Qed.
Lemma row_stops_all {A} (reads : list Z -> A -> list Z -> Prop) (stop : list Z -> A -> bool -> Prop) zero (Q : A -> Prop) k t l b : (forall t v r, reads t v r -> Q v) -> (forall t v b, stop t v b -> Q v) -> Q zero -> row_stops reads stop zero k t l b ->
  List.length l = k /\ Forall Q l.
Proof.
  intros H1 H2 H0. induction 1 as [k t v b H|k t v r l b H H' [L F]].
  - split; [cbn [List.length]; rewrite repeat_length; reflexivity|]. constructor; [eapply H2; eassumption|]. apply Forall_forall. intros x Hx. apply repeat_spec in Hx. subst x. exact H0.
  - split; [cbn [List.length]; lia|]. constructor; [eapply H1; eassumption|exact F].
Qed.
Lemma u32_bound t v r : u32_reads t v r -> is_u32 v.
Proof. apply uint_bound. lia. Qed.
Lemma u32_stop_bound t v b : u32_stops t v b -> is_u32 v.
Proof. apply uint_stop_bound. lia. Qed.
Lemma u32_zero : is_u32 0.
Proof. split; lia. Qed.
Lemma alt_bound t x r : alt_reads t x r -> is_u32 (alt_count x).
Proof. intros (r1 & _ & H). exact (u32_bound _ _ _ H). Qed.
Lemma alt_stop_bound t x b : alt_stops t x b -> is_u32 (alt_count x).
Proof. intros [[_ ->]|(r1 & _ & H)]; [exact u32_zero|exact (u32_stop_bound _ _ _ H)]. Qed.
Lemma no_value_of a : value_of a (no_value a).
Proof. destruct a; cbn; repeat split; try exact I; try lia; repeat (constructor; try (split; cbn; lia)). Qed.
Lemma value_bound a t v r : value_reads a t v r -> value_of a v.
Proof.
  destruct a; cbn [value_reads];
    try (intros (n & -> & H); split; [exact (u32_bound _ _ _ H)|exact I]).
  - intros (l & -> & H). destruct (row_reads_all _ _ _ _ _ _ alt_bound H) as [L F]. split; [reflexivity|split; assumption].
  - intros (l & -> & H). destruct (row_reads_all _ _ _ _ _ _ u32_bound H) as [L F]. split; [reflexivity|split; assumption].
  - intros (n & r1 & l & -> & H1 & H). destruct (row_reads_all _ _ _ _ _ _ u32_bound H) as [L F]. apply uint_bound in H1; [|lia]. split; [reflexivity|]. split; [lia|exact F].
Qed.
Lemma value_stop_bound a t v b : value_stops a t v b -> value_of a v.
Proof.
  destruct a; cbn [value_stops];
    try (intros (n & -> & H); split; [exact (u32_stop_bound _ _ _ H)|exact I]).
  - intros (l & -> & H). destruct (row_stops_all _ _ (mkalt false 0) (fun x => is_u32 (alt_count x)) _ _ _ _ alt_bound alt_stop_bound u32_zero H) as [L F]. split; [reflexivity|split; assumption].
  - intros (l & -> & H). destruct (row_stops_all _ _ _ _ _ _ _ _ u32_bound u32_stop_bound u32_zero H) as [L F]. split; [reflexivity|split; assumption].
  - intros [(n & -> & H)|(n & r1 & l & -> & H1 & H)]; [split; [reflexivity|split; [cbn; lia|constructor]]|].
    destruct (row_stops_all _ _ _ _ _ _ _ _ u32_bound u32_stop_bound u32_zero H) as [L F]. apply uint_bound in H1; [|lia]. split; [reflexivity|]. split; [lia|exact F].
Qed.
Lemma columns_values n ss t cols b : columns_text n ss t cols b ->
  Forall2 (fun s c => (c = [] \/ List.length c = n) /\ Forall (value_of (st_algo s)) c) ss cols.
Proof.
  induction 1 as [t b E|st ss t c b H|st ss t c r cs b H1 H IH]; [constructor| |].
  - destruct (row_stops_all _ _ _ (value_of (st_algo st)) _ _ _ _ (value_bound _) (value_stop_bound _) (no_value_of _) H) as [L F]. constructor; [split; [right; exact L|exact F]|].
    clear. induction ss as [|s ss IH]; constructor; [split; [left; reflexivity|constructor]|exact IH].
  - destruct (row_reads_all _ _ _ _ _ _ (value_bound (st_algo st)) H1) as [L F]. constructor; [split; [right; exact L|exact F]|exact IH].
Qed.
Lemma table_values ss t cols b : table_text ss t cols b -> exists n, Z.of_nat n < 18446744073709551616 /\
  Forall2 (fun s c => (c = [] \/ List.length c = n) /\ Forall (value_of (st_algo s)) c) ss cols.
Proof.
  destruct 1 as [t n r cols b H1 H|t n b _ _].
  - apply uint_bound in H1; [|lia]. exists (Z.to_nat n). split; [lia|]. exact (columns_values _ _ _ _ _ H).
  - exists 0%nat. split; [reflexivity|]. induction ss as [|s ss IH]; constructor; [split; [left; reflexivity|constructor]|exact IH].
Qed.
Lemma whole_text ss t cols : whole_table ss t cols -> table_text ss t cols true /\ exists n, table n ss cols.
Proof.
  intros (n & r & H1 & H). assert (K : columns_text (Z.to_nat n) ss r cols true /\ Forall2 (fun s c => List.length c = Z.to_nat n /\ Forall (value_of (st_algo s)) c) ss cols).
  { clear H1 t. induction H as [t B|st ss t c r cs H1 H [I1 I2]]; [split; [constructor; split; [intros _; exact B|reflexivity]|constructor]|].
    split; [eapply ct_more; eassumption|]. constructor; [apply (row_reads_all _ _ _ _ _ _ (value_bound (st_algo st)) H1)|exact I2]. }
  destruct K as [K1 K2]. split; [eapply tt_size; eassumption|]. exists (Z.to_nat n). apply uint_bound in H1; [|lia]. split; [lia|exact K2].
Qed.
Lemma whole_loads ss t cols : whole_table ss t cols -> load_file (read_datas ss) t = Ok cols /\ exists n, table n ss cols.
Proof.
  intros H. destruct (whole_text _ _ _ H) as [H1 H2]. split; [|exact H2]. destruct (table_run _ _ _ _ H1) as (s & E & Es). unfold load_file. rewrite E. cbn [bind]. rewrite Es. reflexivity.
Qed.
