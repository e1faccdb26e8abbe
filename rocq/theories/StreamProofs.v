(** Lemmas about the streams of [StreamModel]. *)
From Verif Require Import Base BaseProofs StreamModel.
From Coq Require Import ZArith Lia.

Lemma print_digits_nonempty f n : f <> O -> print_digits f n <> [].
Proof.
  destruct f as [|f]; [congruence|]. intros _. cbn [print_digits].
  destruct (n <? 10); [discriminate|]. intros E. apply app_eq_nil in E. destruct E; discriminate.
Qed.

Lemma print_digits_digits f n : 0 <= n -> Forall (fun c => is_digit c = true) (print_digits f n).
Proof.
  revert n. induction f as [|f IH]; intros n Hn; cbn [print_digits]; [constructor|].
  destruct (Z.ltb_spec n 10).
  - constructor; [|constructor]. unfold is_digit. rewrite andb_true_iff, !Z.leb_le. lia.
  - apply Forall_app. split; [apply IH; apply Z.div_pos; lia|].
    constructor; [|constructor]. unfold is_digit. rewrite andb_true_iff, !Z.leb_le.
    pose proof (Z.mod_pos_bound n 10 ltac:(lia)). lia.
Qed.

Lemma digits_value_app ds d : digits_value (ds ++ [d]) = digits_value ds * 10 + (d - 48).
Proof. unfold digits_value. rewrite fold_left_app. reflexivity. Qed.

Lemma print_digits_value f n : 0 <= n < 10 ^ Z.of_nat f -> digits_value (print_digits f n) = n.
Proof.
  revert n. induction f as [|f IH]; intros n Hn.
  - cbn in Hn |- *. lia.
  - cbn [print_digits]. destruct (Z.ltb_spec n 10); [change (0 * 10 + (48 + n - 48) = n); lia|].
    rewrite digits_value_app, IH.
    + pose proof (Z.div_mod n 10 ltac:(lia)). lia.
    + rewrite Nat2Z.inj_succ, Z.pow_succ_r in Hn by lia.
      split; [apply Z.div_pos; lia|]. apply Z.div_lt_upper_bound; lia.
Qed.

Lemma print_uint_value n : 0 <= n < 18446744073709551616 -> digits_value (print_uint n) = n.
Proof.
  intros H. apply print_digits_value.
  change (10 ^ Z.of_nat 20) with 100000000000000000000. lia.
Qed.
Lemma print_uint_digits n : 0 <= n -> Forall (fun c => is_digit c = true) (print_uint n).
Proof. apply print_digits_digits. Qed.
Lemma print_uint_nonempty n : print_uint n <> [].
Proof. apply print_digits_nonempty. discriminate. Qed.

Lemma print_uint_cons n : 0 <= n -> exists c l, print_uint n = c :: l /\ is_digit c = true.
Proof.
  intros Hn. pose proof (print_uint_nonempty n) as N. pose proof (print_uint_digits n Hn) as D.
  destruct (print_uint n) as [|c l]; [congruence|]. exists c, l. inversion D. auto.
Qed.

Lemma digit_not_space c : is_digit c = true -> is_space c = false.
Proof.
  unfold is_digit, is_space. rewrite andb_true_iff, !Z.leb_le. intros H.
  rewrite orb_false_iff, andb_false_iff, Z.eqb_neq, !Z.leb_gt. lia.
Qed.
Lemma digit_not_sign c : is_digit c = true -> (c =? 45) || (c =? 43) = false.
Proof.
  unfold is_digit. rewrite andb_true_iff, !Z.leb_le, orb_false_iff, !Z.eqb_neq. lia.
Qed.

(** The texts that stop a number. *)
Definition stops (p : Z -> bool) (l : list Z) : Prop := match l with c :: _ => p c = false | [] => True end.

Lemma span_digits_app ds r : Forall (fun c => is_digit c = true) ds -> stops is_digit r ->
  span_digits (ds ++ r) = (ds, r).
Proof.
  intros D N. induction D as [|c ds Hc D IH]; cbn [app span_digits].
  - destruct r as [|c r]; [reflexivity|]. cbn in N. cbn [span_digits]. rewrite N. reflexivity.
  - rewrite Hc, IH. reflexivity.
Qed.

Lemma span_int_uint n r : 0 <= n -> stops is_digit r ->
  span_int (print_uint n ++ r) = (false, print_uint n, r).
Proof.
  intros Hn N. pose proof (print_uint_digits n Hn) as D. pose proof (print_uint_nonempty n) as NE.
  pose proof (span_digits_app (print_uint n) r D N) as E.
  destruct (print_uint n) as [|c l]; [congruence|]. inversion D; subst.
  cbn [app span_int]. rewrite digit_not_sign by assumption. cbn [app] in E. rewrite E. reflexivity.
Qed.

Definition spaces (l : list Z) : Prop := Forall (fun c => is_space c = true) l.

Lemma drop_spaces_app p l : spaces p -> stops is_space l -> drop_spaces (p ++ l) = l.
Proof.
  intros S N. induction S as [|c p Hc S IH]; cbn [app drop_spaces].
  - destruct l as [|c l]; [reflexivity|]. cbn in N. cbn [drop_spaces]. rewrite N. reflexivity.
  - rewrite Hc. exact IH.
Qed.

(** The sentry of a good stream, before a text that is not white space. *)
Lemma sentry_good p l sk :
  spaces p -> (sk = false -> p = []) -> stops is_space l -> l <> [] ->
  sentry false (mkis (p ++ l) false false sk) = (true, mkis l false false sk).
Proof.
  intros S K N NE. unfold sentry. cbn [is_eof is_fail is_rest is_skipws orb negb andb].
  destruct sk.
  - rewrite drop_spaces_app by assumption. destruct l; [congruence|]. reflexivity.
  - rewrite K by reflexivity. reflexivity.
Qed.

Lemma sentry_bad b s : is_eof s || is_fail s = true -> sentry b s = (false, set_state false true s).
Proof. unfold sentry. intros ->. reflexivity. Qed.

(** Reading a number that was printed. *)
Lemma get_uint_print m old p n r sk :
  spaces p -> (sk = false -> p = []) -> 0 <= n < m -> m <= 18446744073709551616 -> stops is_digit r ->
  get_uint m old (mkis (p ++ print_uint n ++ r) false false sk) = (n, mkis r (null r) false sk).
Proof.
  intros S K Hn Hm N. unfold get_uint.
  destruct (print_uint_cons n ltac:(lia)) as (c & l & E & Hc).
  rewrite sentry_good; [|assumption|assumption|rewrite E; cbn; apply digit_not_space; assumption|rewrite E; discriminate].
  cbn [is_rest]. rewrite span_int_uint by (lia || assumption).
  rewrite print_uint_value by lia. rewrite E. cbn [null].
  destruct (Z.leb_spec m n); [lia|]. unfold set_state, set_rest. cbn. reflexivity.
Qed.

(** Reading a boolean that was printed. *)
Lemma get_bool_print old p b r sk :
  spaces p -> (sk = false -> p = []) -> stops is_digit r ->
  get_bool old (mkis (p ++ print_bool b ++ r) false false sk) = (b, mkis r (null r) false sk).
Proof.
  intros S K N. unfold get_bool, print_bool. cbn [app].
  rewrite sentry_good; [|assumption|assumption|destruct b; reflexivity|discriminate].
  cbn [is_rest]. unfold span_int.
  assert (E : ((if b then 49 else 48) =? 45) || ((if b then 49 else 48) =? 43) = false) by (destruct b; reflexivity).
  rewrite E. clear E. cbn [span_digits].
  assert (E : is_digit (if b then 49 else 48) = true) by (destruct b; reflexivity). rewrite E. clear E.
  assert (E : span_digits r = ([], r)) by exact (span_digits_app [] r (Forall_nil _) N).
  rewrite E. destruct b; cbn; reflexivity.
Qed.

(** Reading a character. *)
Lemma get_char_one old c r : get_char old (mkis (c :: r) false false false) = (c, mkis r false false false).
Proof. reflexivity. Qed.

(** Reading a word. *)
Lemma span_word_app w r : Forall (fun c => is_space c = false) w ->
  (match r with c :: _ => is_space c = true | [] => True end) -> span_word (w ++ r) = (w, r).
Proof.
  intros W N. induction W as [|c w Hc W IH]; cbn [app span_word].
  - destruct r as [|c r]; [reflexivity|]. cbn [span_word]. rewrite N. reflexivity.
  - rewrite Hc, IH. reflexivity.
Qed.
Lemma get_word_written old p w r :
  spaces p -> w <> [] -> Forall (fun c => is_space c = false) w ->
  (match r with c :: _ => is_space c = true | [] => True end) ->
  get_word old (mkis (p ++ w ++ r) false false true) = (w, mkis r (null r) false true).
Proof.
  intros S NE W N. unfold get_word.
  rewrite sentry_good; [|assumption|discriminate| |].
  - cbn [is_rest]. rewrite span_word_app by assumption. destruct w; [congruence|].
    unfold set_state, set_rest. cbn. reflexivity.
  - destruct w as [|c w]; [congruence|]. cbn. inversion W. assumption.
  - destruct w; [congruence|discriminate].
Qed.

(** Reading bytes. *)
Lemma split_at_app a b n : Z.of_nat (List.length a) = n -> split_at n (a ++ b) = (a, b).
Proof.
  revert n. induction a as [|c a IH]; intros n H; cbn [app].
  - cbn in H. subst. destruct b; reflexivity.
  - cbn [List.length] in H. cbn [split_at]. destruct (Z.leb_spec n 0); [lia|].
    rewrite (IH (n - 1)) by lia. reflexivity.
Qed.
Lemma read_bytes_written a b sk n : Z.of_nat (List.length a) = n ->
  read_bytes n (mkis (a ++ b) false false sk) = (a, mkis b false false sk).
Proof.
  intros H. unfold read_bytes, sentry. cbn [is_eof is_fail is_rest is_skipws orb negb andb].
  rewrite split_at_app by assumption. rewrite H, Z.ltb_irrefl. reflexivity.
Qed.

(** Truncated texts. *)
Definition prefix (q t : list Z) : Prop := exists r, t = q ++ r.

Lemma prefix_app q a b : prefix q (a ++ b) ->
  (exists q', q = a ++ q' /\ prefix q' b) \/ (exists c r, a = q ++ c :: r).
Proof.
  revert q. induction a as [|x a IH]; intros q [r E].
  - left. exists q. split; [reflexivity|]. exists r. exact E.
  - destruct q as [|y q].
    + right. exists x, a. reflexivity.
    + cbn [app] in E. injection E as -> E. destruct (IH q) as [(q' & -> & P)|(c & r' & ->)].
      * exists r. exact E.
      * left. exists q'. split; [reflexivity|exact P].
      * right. exists c, r'. reflexivity.
Qed.

Lemma prefix_nil q : prefix q [] -> q = [].
Proof. intros [r E]. symmetry in E. apply app_eq_nil in E. tauto. Qed.

Lemma prefix_cons q c r : prefix q (c :: r) -> q = [] \/ exists q', q = c :: q' /\ prefix q' r.
Proof.
  intros [x E]. destruct q as [|y q]; [auto|]. cbn [app] in E. injection E as -> E.
  right. exists q. split; [reflexivity|]. exists x. exact E.
Qed.

Lemma prefix_spaces q p c r : spaces p -> p = q ++ c :: r -> spaces q.
Proof. unfold spaces. intros S ->. apply Forall_app in S. tauto. Qed.

(** A stream that has reached its end: every later extraction fails. *)
Definition dead (s : istream) : Prop := is_eof s = true /\ is_rest s = [].

Lemma dead_fail s : dead s -> dead (set_state false true s).
Proof. unfold dead, set_state. destruct s as [l e f k]. cbn. intros [-> ->]. auto. Qed.
Lemma get_uint_dead m old s : dead s -> get_uint m old s = (old, set_state false true s).
Proof. intros [He _]. unfold get_uint. rewrite sentry_bad by (rewrite He; reflexivity). reflexivity. Qed.
Lemma get_bool_dead old s : dead s -> get_bool old s = (old, set_state false true s).
Proof. intros [He _]. unfold get_bool. rewrite sentry_bad by (rewrite He; reflexivity). reflexivity. Qed.
Lemma get_char_dead old s : dead s -> get_char old s = (old, set_state false true s).
Proof. intros [He _]. unfold get_char. rewrite sentry_bad by (rewrite He; reflexivity). reflexivity. Qed.
Lemma get_word_dead old s : dead s -> get_word old s = (old, set_state false true s).
Proof. intros [He _]. unfold get_word. rewrite sentry_bad by (rewrite He; reflexivity). reflexivity. Qed.
Lemma read_bytes_dead n s : dead s -> read_bytes n s = ([], set_state false true s).
Proof. intros [He _]. unfold read_bytes. rewrite sentry_bad by (rewrite He; reflexivity). reflexivity. Qed.
Lemma skip_char_dead s : dead s -> skip_char s = s.
Proof. intros [_ Hr]. unfold skip_char. rewrite Hr. reflexivity. Qed.
Lemma set_state_fail e s : is_fail (set_state e true s) = true.
Proof. unfold set_state. cbn. apply orb_true_r. Qed.

(** The sentry of an exhausted stream. *)
Lemma sentry_spaces p : spaces p -> sentry false (mkis p false false true) = (false, mkis [] true true true).
Proof.
  intros S. unfold sentry. cbn [is_eof is_fail is_rest is_skipws orb negb andb].
  rewrite <- (app_nil_r p), drop_spaces_app by (assumption || exact I). reflexivity.
Qed.

Lemma get_uint_cut m old p n r q sk :
  spaces p -> (sk = false -> p = []) -> 0 <= n < m -> m <= 18446744073709551616 -> stops is_digit r ->
  prefix q (p ++ print_uint n ++ r) ->
  (exists q', q = p ++ print_uint n ++ q' /\ prefix q' r /\
    get_uint m old (mkis q false false sk) = (n, mkis q' (null q') false sk)) \/
  (exists v s, get_uint m old (mkis q false false sk) = (v, s) /\ dead s /\ is_skipws s = sk /\
    (is_fail s = false -> exists d c t, q = p ++ d /\ d <> [] /\ print_uint n = d ++ c :: t /\ v = digits_value d)).
Proof.
  intros S K Hn Hm N P.
  destruct (prefix_app q p _ P) as [(q1 & -> & P1)|(c & t & E)].
  - destruct (prefix_app q1 _ _ P1) as [(q2 & -> & P2)|(c & t & E)].
    + left. exists q2. split; [reflexivity|]. split; [exact P2|].
      apply get_uint_print; try assumption. destruct P2 as [x ->]. destruct q2; [exact I|exact N].
    + right. pose proof (print_uint_digits n ltac:(lia)) as D. rewrite E in D. apply Forall_app in D as [D _].
      destruct q1 as [|d q1].
      * rewrite app_nil_r. unfold get_uint. destruct sk.
        -- rewrite sentry_spaces by exact S. do 2 eexists. split; [reflexivity|].
           split; [split; reflexivity|]. split; [reflexivity|]. discriminate.
        -- rewrite (K eq_refl). cbn. do 2 eexists. split; [reflexivity|].
           split; [split; reflexivity|]. split; [reflexivity|]. discriminate.
      * inversion D as [|? ? Hd D']; subst. unfold get_uint.
        rewrite sentry_good; [|assumption|assumption|cbn; apply digit_not_space; assumption|discriminate].
        cbn [is_rest]. unfold span_int. rewrite digit_not_sign by assumption.
        pose proof (span_digits_app (d :: q1) [] D I) as E2. rewrite app_nil_r in E2. rewrite E2.
        cbn [null]. destruct (m <=? digits_value (d :: q1)).
        -- do 2 eexists. split; [reflexivity|]. split; [split; reflexivity|]. split; [reflexivity|]. discriminate.
        -- do 2 eexists. split; [reflexivity|]. split; [split; reflexivity|]. split; [reflexivity|].
           intros _. exists (d :: q1), c, t. repeat split; [discriminate|exact E].
  - right. destruct sk; [|rewrite (K eq_refl) in E; destruct q; discriminate].
    pose proof (prefix_spaces q p c t S E) as Sq. unfold get_uint. rewrite sentry_spaces by exact Sq.
    do 2 eexists. split; [reflexivity|]. split; [split; reflexivity|]. split; [reflexivity|]. discriminate.
Qed.

Lemma get_bool_cut old p b r q sk :
  spaces p -> (sk = false -> p = []) -> stops is_digit r ->
  prefix q (p ++ print_bool b ++ r) ->
  (exists q', q = p ++ print_bool b ++ q' /\ prefix q' r /\
    get_bool old (mkis q false false sk) = (b, mkis q' (null q') false sk)) \/
  (exists v s, get_bool old (mkis q false false sk) = (v, s) /\ dead s /\ is_skipws s = sk /\ is_fail s = true).
Proof.
  intros S K N P.
  assert (Sp : forall q, spaces q -> (sk = false -> q = []) ->
    exists v s, get_bool old (mkis q false false sk) = (v, s) /\ dead s /\ is_skipws s = sk /\ is_fail s = true).
  { intros x Sx Kx. unfold get_bool. destruct sk.
    - rewrite sentry_spaces by exact Sx. do 2 eexists. split; [reflexivity|].
      split; [split; reflexivity|]. split; reflexivity.
    - rewrite (Kx eq_refl). cbn. do 2 eexists. split; [reflexivity|].
      split; [split; reflexivity|]. split; reflexivity. }
  destruct (prefix_app q p _ P) as [(q1 & -> & P1)|(c & t & E)].
  - destruct (prefix_app q1 _ _ P1) as [(q2 & -> & P2)|(c & t & E)].
    + left. exists q2. split; [reflexivity|]. split; [exact P2|].
      apply get_bool_print; try assumption. destruct P2 as [x ->]. destruct q2; [exact I|exact N].
    + right. assert (q1 = []) as ->.
      { unfold print_bool in E. destruct q1 as [|? [|? ?]]; [reflexivity|discriminate|discriminate]. }
      rewrite app_nil_r. apply Sp; assumption.
  - right. apply Sp; [exact (prefix_spaces q p c t S E)|].
    intros Ek. rewrite (K Ek) in E. destruct q; discriminate.
Qed.
