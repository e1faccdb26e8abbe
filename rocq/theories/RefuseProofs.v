From Verif Require Import Base BaseProofs StreamModel StreamProofs DictIoModel RefuseSpec.

(** A stream being read without skipping spaces. *)
Notation st l := (mkis l false false false).
Definition minus (sign : list Z) : bool := match sign with [45] => true | _ => false end.

Lemma span_digits_inv l : forall ds r, span_digits l = (ds, r) -> l = ds ++ r /\ (forall c, In c ds -> is_digit c = true) /\ stops is_digit r.
Proof.
  induction l as [|c l IH]; intros ds r H; cbn [span_digits] in H; [injection H as <- <-; split; [reflexivity|]; split; [intros c []|exact I]|].
  destruct (is_digit c) eqn:E.
  - destruct (span_digits l) as [ds' r'] eqn:Es. injection H as <- <-. destruct (IH _ _ eq_refl) as (-> & D & S'). split; [reflexivity|]. split; [|exact S'].
    intros x [<-|Hx]; [exact E|exact (D x Hx)].
  - injection H as <- <-. split; [reflexivity|]. split; [intros x []|exact E].
Qed.
Lemma span_int_inv l neg ds r : span_int l = (neg, ds, r) -> exists sign, signed sign ds /\ l = sign ++ ds ++ r /\ stops is_digit r /\ neg = minus sign.
Proof.
  destruct l as [|c l]; cbn [span_int]; [intros H; injection H as <- <- <-; exists []; split; [split; [auto|intros x []]|]; split; [reflexivity|split; [exact I|reflexivity]]|].
  assert (C : c = 45 \/ c = 43 \/ (c =? 45) || (c =? 43) = false).
  { destruct (Z.eqb_spec c 45) as [E|]; [left; exact E|]. destruct (Z.eqb_spec c 43) as [E|]; [right; left; exact E|right; right; reflexivity]. }
  destruct C as [C|[C|C]].
  - subst c. change ((45 =? 45) || (45 =? 43)) with true. cbn iota. destruct (span_digits l) as [ds' r'] eqn:Es. intros H. injection H as <- <- <-.
    destruct (span_digits_inv _ _ _ Es) as (-> & D & S'). exists [45]. split; [split; [auto|exact D]|]. split; [reflexivity|]. split; [exact S'|reflexivity].
  - subst c. change ((43 =? 45) || (43 =? 43)) with true. cbn iota. destruct (span_digits l) as [ds' r'] eqn:Es. intros H. injection H as <- <- <-.
    destruct (span_digits_inv _ _ _ Es) as (-> & D & S'). exists [43]. split; [split; [auto|exact D]|]. split; [reflexivity|]. split; [exact S'|reflexivity].
  - rewrite C. destruct (span_digits (c :: l)) as [ds' r'] eqn:Es. intros H. injection H as <- <- <-. destruct (span_digits_inv _ _ _ Es) as (E' & D & S').
    exists []. split; [split; [auto|exact D]|]. split; [exact E'|]. split; [exact S'|reflexivity].
Qed.
Lemma span_int_signed sign ds r : signed sign ds -> stops is_digit r -> (ds <> [] \/ sign <> [] \/ r = []) -> span_int (sign ++ ds ++ r) = (minus sign, ds, r).
Proof.
  intros [Hs D] Hr Hne. assert (F : Forall (fun c => is_digit c = true) ds) by (apply Forall_forall; exact D).
  pose proof (span_digits_app ds r F Hr) as E. destruct Hs as [->|[->| ->]]; cbn [app].
  - destruct ds as [|c ds].
    + cbn [app] in *. destruct Hne as [H|[H| ->]]; try congruence. reflexivity.
    + cbn [app] in *. cbn [span_int]. specialize (D c (or_introl eq_refl)). unfold is_digit in D.
      assert ((c =? 45) || (c =? 43) = false) as -> by (destruct (Z.eqb_spec c 45), (Z.eqb_spec c 43); subst; try discriminate; reflexivity).
      rewrite E. reflexivity.
  - cbn [span_int]. change ((43 =? 45) || (43 =? 43)) with true. cbn iota. rewrite E. reflexivity.
  - cbn [span_int]. change ((45 =? 45) || (45 =? 43)) with true. cbn iota. rewrite E. reflexivity.
Qed.

(** One number. *)
Lemma get_uint_st m old l : get_uint m old (st l) =
  let '(neg, ds, r) := span_int l in
  if null ds then (0, mkis r (null r) true false)
  else if m <=? digits_value ds then (m - 1, mkis r (null r) true false)
  else (if neg : bool then (- digits_value ds) mod m else digits_value ds, mkis r (null r) false false).
Proof.
  unfold get_uint, sentry. cbn [is_eof is_fail orb is_skipws negb andb]. cbn [is_rest]. destruct (span_int l) as [[neg ds] r].
  unfold set_state, set_rest. cbn [is_rest is_eof is_fail is_skipws orb]. rewrite ?orb_false_r.
  destruct (null ds); [reflexivity|]. destruct (m <=? digits_value ds); [reflexivity|reflexivity].
Qed.
Lemma get_bool_st old l : get_bool old (st l) =
  let '(neg, ds, r) := span_int l in
  if null ds then (false, mkis r (null r) true false)
  else if digits_value ds =? 0 then (false, mkis r (null r) false false)
  else if (digits_value ds =? 1) && negb neg then (true, mkis r (null r) false false)
  else (true, mkis r (null r) true false).
Proof.
  unfold get_bool, sentry. cbn [is_eof is_fail orb is_skipws negb andb]. cbn [is_rest]. destruct (span_int l) as [[neg ds] r].
  unfold set_state, set_rest. cbn [is_rest is_eof is_fail is_skipws orb]. rewrite ?orb_false_r.
  destruct (null ds); [reflexivity|]. destruct (digits_value ds =? 0); [reflexivity|]. destruct ((digits_value ds =? 1) && negb neg); reflexivity.
Qed.
Lemma get_char_st old c r : get_char old (st (c :: r)) = (c, st r).
Proof. reflexivity. Qed.

(** After a failure, or at the end of the file, nothing more is read. *)
Definition stopped (s : istream) : Prop := is_eof s = true \/ is_fail s = true.
Lemma sentry_stopped b s : stopped s -> sentry b s = (false, set_state false true s).
Proof. unfold stopped, sentry. intros [-> | ->]; [reflexivity|rewrite orb_true_r; reflexivity]. Qed.
Lemma stopped_fail s : stopped (set_state false true s) /\ is_fail (set_state false true s) = true /\ is_eof (set_state false true s) = is_eof s.
Proof. unfold set_state, stopped. cbn. rewrite orb_true_r, orb_false_r. auto. Qed.
Lemma get_uint_stopped m old s : stopped s -> get_uint m old s = (old, set_state false true s).
Proof. intros H. unfold get_uint. rewrite sentry_stopped by exact H. reflexivity. Qed.
Lemma get_bool_stopped old s : stopped s -> get_bool old s = (old, set_state false true s).
Proof. intros H. unfold get_bool. rewrite sentry_stopped by exact H. reflexivity. Qed.
Lemma get_char_stopped old s : stopped s -> get_char old s = (old, set_state false true s).
Proof. intros H. unfold get_char. rewrite sentry_stopped by exact H. reflexivity. Qed.
Ltac stp := first [left; reflexivity|right; reflexivity|apply stopped_fail|assumption].
Ltac dead_end := repeat (first [rewrite get_char_stopped by stp|unfold get_unsigned; rewrite get_uint_stopped by stp|rewrite get_bool_stopped by stp]; cbn beta iota zeta).

(** A number read, or a failure. *)
Lemma number_step m old l :
  (exists f v r, number_text m v f /\ l = f ++ r /\ stops is_digit r /\ get_uint m old (st l) = (v, mkis r (null r) false false)) \/
  (exists sign ds r v, signed sign ds /\ l = sign ++ ds ++ r /\ get_uint m old (st l) = (v, mkis r (null r) true false)).
Proof.
  rewrite get_uint_st. destruct (span_int l) as [[neg ds] r] eqn:E. destruct (span_int_inv _ _ _ _ E) as (sign & Hs & -> & Hr & ->).
  destruct ds as [|d ds]; cbn [null].
  { right. exists sign, [], r, 0. split; [exact Hs|]. split; reflexivity. }
  destruct (Z.leb_spec m (digits_value (d :: ds))) as [L|L].
  { right. exists sign, (d :: ds), r, (m - 1). split; [exact Hs|]. split; reflexivity. }
  left. exists (sign ++ d :: ds), (match sign with [45] => (- digits_value (d :: ds)) mod m | _ => digits_value (d :: ds) end), r.
  split; [exists sign, (d :: ds); split; [reflexivity|]; split; [exact Hs|]; split; [discriminate|]; split; [exact L|reflexivity]|].
  split; [rewrite <- app_assoc; reflexivity|]. split; [exact Hr|].
  destruct Hs as [[->|[->| ->]] _]; reflexivity.
Qed.
Lemma flag_step old l :
  (exists f v r, flag_text v f /\ l = f ++ r /\ stops is_digit r /\ get_bool old (st l) = (v, mkis r (null r) false false)) \/
  (exists sign ds r v, signed sign ds /\ l = sign ++ ds ++ r /\ get_bool old (st l) = (v, mkis r (null r) true false)).
Proof.
  rewrite get_bool_st. destruct (span_int l) as [[neg ds] r] eqn:E. destruct (span_int_inv _ _ _ _ E) as (sign & Hs & -> & Hr & ->).
  destruct ds as [|d ds]; cbn [null].
  { right. exists sign, [], r, false. split; [exact Hs|]. split; reflexivity. }
  destruct (Z.eqb_spec (digits_value (d :: ds)) 0) as [L|L].
  { left. exists (sign ++ d :: ds), false, r. split; [exists sign, (d :: ds); split; [reflexivity|]; split; [exact Hs|]; split; [discriminate|]; left; split; [exact L|reflexivity]|].
    split; [rewrite <- app_assoc; reflexivity|]. split; [exact Hr|reflexivity]. }
  destruct (Z.eqb_spec (digits_value (d :: ds)) 1) as [L1|L1]; cbn [andb].
  2: { right. exists sign, (d :: ds), r, true. split; [exact Hs|]. split; reflexivity. }
  destruct (minus sign) eqn:Em; cbn [negb].
  { right. exists sign, (d :: ds), r, true. split; [exact Hs|]. split; reflexivity. }
  left. exists (sign ++ d :: ds), true, r. split.
  - exists sign, (d :: ds). split; [reflexivity|]. split; [exact Hs|]. split; [discriminate|]. right. split; [exact L1|]. split; [|reflexivity]. intros ->. discriminate Em.
  - split; [rewrite <- app_assoc; reflexivity|]. split; [exact Hr|reflexivity].
Qed.
Lemma flag_signed v f : flag_text v f -> exists sign ds, f = sign ++ ds /\ signed sign ds.
Proof. intros (sign & ds & -> & Hs & _). eauto. Qed.
Lemma number_signed m v f : number_text m v f -> exists sign ds, f = sign ++ ds /\ signed sign ds.
Proof. intros (sign & ds & -> & Hs & _). eauto. Qed.

Lemma unfinished_here sign ds : signed sign ds -> unfinished (sign ++ ds).
Proof. intros H. exists [], sign, ds. split; [cbn; lia|]. split; [constructor|]. split; [exact H|reflexivity]. Qed.
(** With [k] fields left before the last one. *)
Definition unfinished_k (k : nat) (t : list Z) : Prop :=
  exists fields sign ds, (List.length fields <= k)%nat /\
    Forall (fun '(f, e) => is_digit e = false /\ exists v, number_text 4294967296 v f) fields /\ signed sign ds /\
    t = flat_map (fun '(f, e) => f ++ [e]) fields ++ sign ++ ds.
Lemma uk_here k sign ds : signed sign ds -> unfinished_k k (sign ++ ds).
Proof. intros H. exists [], sign, ds. split; [cbn; lia|]. split; [constructor|]. split; [exact H|reflexivity]. Qed.
Lemma uk_next k f v e t : number_text 4294967296 v f -> is_digit e = false -> unfinished_k k t -> unfinished_k (S k) (f ++ e :: t).
Proof.
  intros Hf He (fs & sign & ds & L & F & Hs & ->). exists ((f, e) :: fs), sign, ds. split; [cbn; lia|]. split; [constructor; [split; [exact He|exists v; exact Hf]|exact F]|].
  split; [exact Hs|]. cbn [flat_map]. rewrite <- !app_assoc. reflexivity.
Qed.

(** The three possible ends of the reading of a record. *)
Definition read_cases (l : list Z) (x : option (fnode * (Z * Z * Z * Z)) * istream) : Prop :=
  (exists n a b c d e1 e2 e3 e4 r, number_text 4294967296 (fn_char n) a /\ number_text 4294967296 (fn_pos n) b /\ number_text 4294967296 (fn_count n) c /\
     flag_text (fn_term n) d /\ l = a ++ e1 :: b ++ e2 :: c ++ e3 :: d ++ e4 :: r /\ x = (Some (n, (e1, e2, e3, e4)), st r)) \/
  (fst x = None /\ (is_eof (snd x) = true -> unfinished_k 3 l)).
Lemma read_record_cases l : read_cases l (read_record (st l)).
Proof.
  unfold read_record. unfold get_unsigned.
  destruct (number_step 4294967296 0 l) as [(a & va & r1 & Ha & -> & S1 & E)|(sign & ds & r & v & Hs & -> & E)]; rewrite E; clear E; cbn beta iota zeta.
  2: { right. dead_end. cbn. split; [reflexivity|]. rewrite ?orb_false_r. destruct r as [|]; [|discriminate]. intros _. rewrite app_nil_r. apply uk_here. exact Hs. }
  destruct r1 as [|e1 r1]; cbn [null].
  { right. dead_end. cbn. split; [reflexivity|]. intros _. rewrite app_nil_r. destruct (number_signed _ _ _ Ha) as (sign & ds & -> & Hs). apply uk_here. exact Hs. }
  cbn [stops] in S1. rewrite get_char_st. cbn beta iota zeta.
  destruct (number_step 4294967296 0 r1) as [(b & vb & r2 & Hb & -> & S2 & E)|(sign & ds & r & v & Hs & -> & E)]; rewrite E; clear E; cbn beta iota zeta.
  2: { right. dead_end. cbn. split; [reflexivity|]. rewrite ?orb_false_r. destruct r as [|]; [|discriminate]. intros _. rewrite app_nil_r.
       apply (uk_next 2 a va e1); [exact Ha|exact S1|]. apply uk_here. exact Hs. }
  destruct r2 as [|e2 r2]; cbn [null].
  { right. dead_end. cbn. split; [reflexivity|]. intros _. rewrite app_nil_r. apply (uk_next 2 a va e1); [exact Ha|exact S1|].
    destruct (number_signed _ _ _ Hb) as (sign & ds & -> & Hs). apply uk_here. exact Hs. }
  cbn [stops] in S2. rewrite get_char_st. cbn beta iota zeta.
  destruct (number_step 4294967296 0 r2) as [(c & vc & r3 & Hc & -> & S3 & E)|(sign & ds & r & v & Hs & -> & E)]; rewrite E; clear E; cbn beta iota zeta.
  2: { right. dead_end. cbn. split; [reflexivity|]. rewrite ?orb_false_r. destruct r as [|]; [|discriminate]. intros _. rewrite app_nil_r.
       apply (uk_next 2 a va e1); [exact Ha|exact S1|]. apply (uk_next 1 b vb e2); [exact Hb|exact S2|]. apply uk_here. exact Hs. }
  destruct r3 as [|e3 r3]; cbn [null].
  { right. dead_end. cbn. split; [reflexivity|]. intros _. rewrite app_nil_r. apply (uk_next 2 a va e1); [exact Ha|exact S1|]. apply (uk_next 1 b vb e2); [exact Hb|exact S2|].
    destruct (number_signed _ _ _ Hc) as (sign & ds & -> & Hs). apply uk_here. exact Hs. }
  cbn [stops] in S3. rewrite get_char_st. cbn beta iota zeta.
  destruct (flag_step false r3) as [(d & vd & r4 & Hd & -> & S4 & E)|(sign & ds & r & v & Hs & -> & E)]; rewrite E; clear E; cbn beta iota zeta.
  2: { right. dead_end. cbn. split; [reflexivity|]. rewrite ?orb_false_r. destruct r as [|]; [|discriminate]. intros _. rewrite app_nil_r.
       apply (uk_next 2 a va e1); [exact Ha|exact S1|]. apply (uk_next 1 b vb e2); [exact Hb|exact S2|]. apply (uk_next 0 c vc e3); [exact Hc|exact S3|]. apply uk_here. exact Hs. }
  destruct r4 as [|e4 r4]; cbn [null].
  { right. dead_end. cbn. split; [reflexivity|]. intros _. rewrite app_nil_r. apply (uk_next 2 a va e1); [exact Ha|exact S1|]. apply (uk_next 1 b vb e2); [exact Hb|exact S2|].
    apply (uk_next 0 c vc e3); [exact Hc|exact S3|]. destruct (flag_signed _ _ Hd) as (sign & ds & -> & Hs). apply uk_here. exact Hs. }
  rewrite get_char_st. cbn beta iota zeta. cbn [is_ok is_fail negb]. left. exists (mkfn va vb vc vd), a, b, c, d, e1, e2, e3, e4, r4.
  cbn [fn_char fn_pos fn_count fn_term]. auto 8.
Qed.

(** Conversely. *)
Lemma number_read m v f r old : number_text m v f -> stops is_digit r -> get_uint m old (st (f ++ r)) = (v, mkis r (null r) false false).
Proof.
  intros (sign & ds & -> & Hs & Hn & Hb & Ev) Hr. rewrite get_uint_st, <- app_assoc, (span_int_signed sign ds r Hs Hr (or_introl Hn)).
  destruct ds as [|d ds]; [congruence|]. cbn [null]. destruct (Z.leb_spec m (digits_value (d :: ds))); [lia|]. subst v.
  destruct Hs as [[->|[->| ->]] _]; reflexivity.
Qed.
Lemma flag_read v f r old : flag_text v f -> stops is_digit r -> get_bool old (st (f ++ r)) = (v, mkis r (null r) false false).
Proof.
  intros (sign & ds & -> & Hs & Hn & Hv) Hr. rewrite get_bool_st, <- app_assoc, (span_int_signed sign ds r Hs Hr (or_introl Hn)).
  destruct ds as [|d ds]; [congruence|]. cbn [null]. destruct Hv as [(-> & ->)|(-> & Hm & ->)]; [reflexivity|].
  destruct Hs as [[->|[->| ->]] _]; try reflexivity. congruence.
Qed.
Lemma record_read n t r : record_text n t -> read_record (st (t ++ r)) = (Some (n, (32, 32, 32, 10)), st r).
Proof.
  intros (a & b & c & d & -> & Ha & Hb & Hc & Hd). cbn [app]. repeat (rewrite <- app_assoc; cbn [app]).
  unfold read_record, get_unsigned. rewrite (number_read _ _ a _ 0 Ha) by reflexivity. cbn beta iota zeta. cbn [null]. rewrite get_char_st.
  rewrite (number_read _ _ b _ 0 Hb) by reflexivity. cbn beta iota zeta. cbn [null]. rewrite get_char_st.
  rewrite (number_read _ _ c _ 0 Hc) by reflexivity. cbn beta iota zeta. cbn [null]. rewrite get_char_st.
  rewrite (flag_read _ d _ false Hd) by reflexivity. cbn beta iota zeta. cbn [null]. rewrite get_char_st.
  destruct n. reflexivity.
Qed.
(** The last number, at the end of the file. *)
Lemma last_number m old sign ds : signed sign ds -> exists v b, get_uint m old (st (sign ++ ds)) = (v, mkis [] true b false).
Proof.
  intros Hs. rewrite get_uint_st. pose proof (span_int_signed sign ds [] Hs I (or_intror (or_intror eq_refl))) as E. rewrite app_nil_r in E. rewrite E.
  destruct (null ds); [eauto|]. destruct (m <=? digits_value ds); eauto.
Qed.
Lemma last_flag old sign ds : signed sign ds -> exists v b, get_bool old (st (sign ++ ds)) = (v, mkis [] true b false).
Proof.
  intros Hs. rewrite get_bool_st. pose proof (span_int_signed sign ds [] Hs I (or_intror (or_intror eq_refl))) as E. rewrite app_nil_r in E. rewrite E.
  destruct (null ds); [eauto|]. destruct (digits_value ds =? 0); [eauto|]. destruct (_ && _); eauto.
Qed.
Lemma unfinished_read l : unfinished l -> exists s, read_record (st l) = (None, s) /\ is_eof s = true.
Proof.
  intros (fs & sign & ds & L & F & Hs & ->). unfold read_record, get_unsigned.
  destruct fs as [|[a e1] fs]; cbn [flat_map app].
  { destruct (last_number 4294967296 0 sign ds Hs) as (v & x & ->). cbn beta iota zeta. dead_end. destruct x; (eexists; split; reflexivity). }
  inversion F as [|? ? H1 F1]; subst. cbn beta iota in H1. destruct H1 as (D1 & v1 & N1). rewrite <- !app_assoc. cbn [app].
  rewrite (number_read _ _ a _ 0 N1) by exact D1. cbn beta iota zeta. cbn [null]. rewrite get_char_st.
  destruct fs as [|[b e2] fs]; cbn [flat_map app].
  { destruct (last_number 4294967296 0 sign ds Hs) as (v & x & ->). cbn beta iota zeta. dead_end. destruct x; (eexists; split; reflexivity). }
  inversion F1 as [|? ? H2 F2]; subst. cbn beta iota in H2. destruct H2 as (D2 & v2 & N2). rewrite <- !app_assoc. cbn [app].
  rewrite (number_read _ _ b _ 0 N2) by exact D2. cbn beta iota zeta. cbn [null]. rewrite get_char_st.
  destruct fs as [|[c e3] fs]; cbn [flat_map app].
  { destruct (last_number 4294967296 0 sign ds Hs) as (v & x & ->). cbn beta iota zeta. dead_end. destruct x; (eexists; split; reflexivity). }
  inversion F2 as [|? ? H3 F3]; subst. cbn beta iota in H3. destruct H3 as (D3 & v3 & N3). rewrite <- !app_assoc. cbn [app].
  rewrite (number_read _ _ c _ 0 N3) by exact D3. cbn beta iota zeta. cbn [null]. rewrite get_char_st.
  destruct fs as [|[d e4] fs]; [|cbn [List.length] in L; lia]. cbn [flat_map app].
  destruct (last_flag false sign ds Hs) as (v & x & ->). cbn beta iota zeta. dead_end. destruct x; (eexists; split; reflexivity).
Qed.

(** The files accepted. *)
Definition body (x : list fnode * istream) : res (list fnode * istream + list fnode * istream) :=
  let '(ns, s) := x in
  let '(r, s) := read_record s in
  match r with
  | Some (n, (e1, e2, e3, e4)) =>
    if negb (e1 =? 32) || negb (e2 =? 32) || negb (e3 =? 32) || negb (e4 =? 10) then Throw ExBadFormat else Ok (inl (ns ++ [n], s))
  | None => Ok (inr (ns, s))
  end.
Lemma load_dict_loop bytes : load_file read_dict bytes =
  ('(ns, s) <- loop (S (S (List.length bytes))) body ([], st bytes) ;; if is_eof s then Ok ns else Throw ExReadFile).
Proof.
  unfold load_file, read_dict. cbn [is_rest open_stream is_skipws]. change (set_skipws false (open_stream bytes)) with (st bytes).
  change (loop _ _ _) with (loop (S (S (List.length bytes))) body ([], st bytes)).
  destruct (loop (S (S (List.length bytes))) body ([], st bytes)) as [[ns s]| | |]; reflexivity.
Qed.
Lemma accept_loop fuel : forall ns l ns' s, loop fuel body (ns, st l) = Ok (ns', s) -> is_eof s = true ->
  exists new ts tail, ns' = ns ++ new /\ Forall2 record_text new ts /\ l = List.concat ts ++ tail /\ unfinished tail.
Proof.
  induction fuel as [|fuel IH]; intros ns l ns' s H He; [discriminate|]. cbn [loop] in H. unfold body at 1 in H.
  destruct (read_record_cases l) as [(n & a & b & c & d & e1 & e2 & e3 & e4 & r & Ha & Hb & Hc & Hd & El & Ex)|(Ex & Hu)].
  - rewrite Ex in H. cbn beta iota in H.
    destruct (Z.eqb_spec e1 32) as [->|]; [|discriminate]. destruct (Z.eqb_spec e2 32) as [->|]; [|discriminate].
    destruct (Z.eqb_spec e3 32) as [->|]; [|discriminate]. destruct (Z.eqb_spec e4 10) as [->|]; [|discriminate]. cbn [negb orb] in H.
    destruct (IH _ _ _ _ H He) as (new & ts & tail & -> & F & -> & U). exists (n :: new), ((a ++ [32] ++ b ++ [32] ++ c ++ [32] ++ d ++ [10]) :: ts), tail.
    split; [rewrite <- app_assoc; reflexivity|]. split; [constructor; [exists a, b, c, d; auto 6|exact F]|]. split; [|exact U].
    rewrite El. cbn [List.concat app]. repeat (rewrite <- app_assoc; cbn [app]). reflexivity.
  - destruct (read_record (st l)) as [x s'] eqn:Er. cbn [fst snd] in *. subst x. injection H as <- <-. exists [], [], l. split; [rewrite app_nil_r; reflexivity|].
    split; [constructor|]. split; [reflexivity|]. exact (Hu He).
Qed.
Lemma record_length n t : record_text n t -> (1 <= List.length t)%nat.
Proof. intros (a & b & c & d & -> & _). rewrite !app_length. cbn [List.length]. lia. Qed.
Lemma accept_conv new ts tail : Forall2 record_text new ts -> unfinished tail -> forall fuel ns, (List.length new < fuel)%nat ->
  exists s, loop fuel body (ns, st (List.concat ts ++ tail)) = Ok (ns ++ new, s) /\ is_eof s = true.
Proof.
  intros F U. induction F as [|n t new ts Hn _ IH]; intros fuel ns Hf; (destruct fuel as [|fuel]; [lia|]); cbn [loop List.concat app].
  - destruct (unfinished_read _ U) as (s & E & He). exists s. unfold body at 1. rewrite E. rewrite app_nil_r. split; [reflexivity|exact He].
  - unfold body at 1. rewrite <- app_assoc, (record_read n t _ Hn). cbn beta iota. change (negb (32 =? 32) || negb (32 =? 32) || negb (32 =? 32) || negb (10 =? 10)) with false. cbn iota.
    destruct (IH fuel (ns ++ [n])) as (s & E & He); [cbn [List.length] in Hf; lia|]. exists s. rewrite E, <- app_assoc. split; [reflexivity|exact He].
Qed.
Lemma accepted_iff bytes ns : load_file read_dict bytes = Ok ns <->
  exists ts tail, Forall2 record_text ns ts /\ bytes = List.concat ts ++ tail /\ unfinished tail.
Proof.
  rewrite load_dict_loop. split.
  - intros H. destruct (loop (S (S (List.length bytes))) body ([], st bytes)) as [[ns' s]| | |] eqn:E; try discriminate. cbn [bind] in H.
    destruct (is_eof s) eqn:He; [|discriminate]. injection H as ->. destruct (accept_loop _ _ _ _ _ E He) as (new & ts & tail & -> & F & -> & U). cbn [app]. eauto 6.
  - intros (ts & tail & F & -> & U). destruct (accept_conv ns ts tail F U (S (S (List.length (List.concat ts ++ tail)))) []) as (s & E & He).
    + assert (L : (List.length ns <= List.length (List.concat ts))%nat).
      { clear - F. induction F as [|n t ns ts H _ IH]; [cbn; lia|]. cbn [List.concat List.length]. rewrite app_length. pose proof (record_length _ _ H). lia. }
      rewrite app_length. lia.
    + rewrite E. cbn [bind app]. rewrite He. reflexivity.
Qed.
