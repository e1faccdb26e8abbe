From Verif Require Import Base BaseProofs SortModel SortProofs DatasModel UtfModel UtfSpec UtfProofs DictIoModel DictIoSpec
  TrieModel TrieSpec TrieProofs FlatTrieProofs DictionaryProofs DecodeSpec.
From Coq Require Import Sorted Permutation.

Lemma stopper_dec b : {stopper b} + {~ stopper b}.
Proof.
  unfold stopper. destruct (Z.eq_dec b 0); [left; left; assumption|].
  destruct (Z_le_dec 128 b); [|right; lia]. destruct (Z_lt_dec b 192); [left; right; lia|right; lia].
Qed.

(** Every text is one or the other. *)
Lemma read_total s : octets s -> (exists gs, characters s gs) \/ cut s.
Proof.
  remember (List.length s) as n eqn:En. assert (Hn : (List.length s <= n)%nat) by lia. clear En. revert s Hn.
  induction n as [|n IH]; intros s Hn Hs; (destruct s as [|b t]; [left; exists []; split; [constructor|exists []; auto]|]); [cbn in Hn; lia|].
  destruct (stopper_dec b) as [S|S]; [left; exists []; split; [constructor|exists (b :: t); split; [reflexivity|right; eauto]]|].
  destruct (le_lt_dec (takes b) (List.length (b :: t))) as [L|L].
  - assert (T : (1 <= takes b)%nat) by (unfold takes; repeat destruct (_ <? _); lia).
    destruct (takes b) as [|k] eqn:Ek; [lia|].
    assert (W : whole (b :: firstn k t)). { exists b, (firstn k t). split; [reflexivity|]. split; [exact S|]. cbn [List.length] in *. rewrite firstn_length, Ek. lia. }
    assert (E : b :: t = (b :: firstn k t) ++ skipn k t) by (cbn [app]; rewrite firstn_skipn; reflexivity).
    destruct (IH (skipn k t)) as [(gs & Hg & r & Er & Hr)|(gs & c & u & Eu & Hg & Hc & Hu)].
    + rewrite skipn_length. cbn [List.length] in Hn. lia.
    + unfold octets in *. rewrite E in Hs. apply Forall_app in Hs. apply Hs.
    + left. exists ((b :: firstn k t) :: gs). split; [constructor; assumption|]. exists r. split; [|exact Hr].
      cbn [List.concat]. rewrite <- app_assoc, <- Er. exact E.
    + right. exists ((b :: firstn k t) :: gs), c, u. split; [|split; [constructor; assumption|split; assumption]].
      cbn [List.concat]. rewrite <- app_assoc, <- Eu. exact E.
  - right. exists [], b, t. split; [reflexivity|]. split; [constructor|]. split; assumption.
Qed.

(** One step of the decoder. *)
Lemma group_cases g : whole g -> octets g ->
  (exists b, g = [b] /\ 1 <= b < 128) \/ (exists b s0, g = [b; s0] /\ 192 <= b < 224 /\ 0 <= s0 < 256) \/
  (exists b s0 s1, g = [b; s0; s1] /\ 224 <= b < 240 /\ 0 <= s0 < 256 /\ 0 <= s1 < 256) \/
  (exists b s0 s1 s2, g = [b; s0; s1; s2] /\ 240 <= b < 256 /\ 0 <= s0 < 256 /\ 0 <= s1 < 256 /\ 0 <= s2 < 256).
Proof.
  intros (b & t & -> & S & L) O. unfold stopper in S. inversion O as [|? ? Ob Ot]; subst. unfold takes in L.
  destruct (Z.ltb_spec b 192).
  { left. exists b. destruct t; [|cbn in L; lia]. split; [reflexivity|lia]. }
  destruct (Z.ltb_spec b 224).
  { right; left. destruct t as [|s0 [|? ?]]; cbn in L; try lia. inversion Ot; subst. exists b, s0. split; [reflexivity|]. split; [lia|assumption]. }
  destruct (Z.ltb_spec b 240).
  { right; right; left. destruct t as [|s0 [|s1 [|? ?]]]; cbn in L; try lia. inversion Ot as [|? ? ? O1]; subst. inversion O1; subst. exists b, s0, s1. split; [reflexivity|]. split; [lia|]. split; assumption. }
  right; right; right. destruct t as [|s0 [|s1 [|s2 [|? ?]]]]; cbn in L; try lia. inversion Ot as [|? ? ? O1]; subst. inversion O1 as [|? ? ? O2]; subst. inversion O2; subst.
  exists b, s0, s1, s2. split; [reflexivity|]. split; [lia|]. split; [assumption|]. split; assumption.
Qed.

Lemma value_range g : whole g -> octets g -> 0 < value g < 4294967296.
Proof.
  intros W O. unfold value.
  destruct (group_cases g W O) as [(b & -> & Hb)|[(b & s0 & -> & Hb & H0)|[(b & s0 & s1 & -> & Hb & H0 & H1)|(b & s0 & s1 & s2 & -> & Hb & H0 & H1 & H2)]]];
    cbn [fold_left]; lia.
Qed.

Lemma div16 b lo k : lo = 16 * k -> lo <= b < lo + 16 -> b / 16 = k.
Proof. intros -> H. symmetry. apply (Z.div_unique b 16 k (b - 16 * k)); lia. Qed.

Lemma next_group pre g rest n : whole g -> octets g -> n = Z.of_nat (List.length pre) ->
  utf8_next (pre ++ g ++ rest) n = Ok (value g, n + Z.of_nat (List.length g)).
Proof.
  intros W O Hn. unfold utf8_next.
  pose proof (rd_at pre (g ++ rest) n Hn) as R.
  assert (R0 : forall v, nth_error (g ++ rest) 0 = Some v -> rd (pre ++ g ++ rest) n = Ok v)
    by (intros v Hv; rewrite <- (R 0%nat v Hv); f_equal; cbn; lia).
  pose proof (R 1%nat) as R1. pose proof (R 2%nat) as R2. pose proof (R 3%nat) as R3. clear R.
  cbn [Z.of_nat Pos.of_succ_nat Pos.succ] in R1, R2, R3. unfold value.
  destruct (group_cases g W O) as [(b & -> & Hb)|[(b & s0 & -> & Hb & H0)|[(b & s0 & s1 & -> & Hb & H0 & H1)|(b & s0 & s1 & s2 & -> & Hb & H0 & H1 & H2)]]];
    rewrite (R0 b eq_refl); cbn [bind]; rewrite shiftr4; cbn [List.length Z.of_nat Pos.of_succ_nat Pos.succ fold_left].
  - assert (b / 16 < 8) by (apply Z.div_lt_upper_bound; lia). destruct (Z.ltb_spec (b / 16) 8); [|lia]. reflexivity.
  - assert (12 <= b / 16 < 14) by (split; [apply Z.div_le_lower_bound; lia|apply Z.div_lt_upper_bound; lia]).
    destruct (Z.ltb_spec (b / 16) 8); [lia|].
    assert (E : ((b / 16 =? 12) || (b / 16 =? 13))%bool = true).
    { destruct (Z.eqb_spec (b / 16) 12); [reflexivity|]. destruct (Z.eqb_spec (b / 16) 13); [reflexivity|lia]. }
    rewrite E, (R1 s0 eq_refl). cbn [bind]. rewrite lor2 by lia. f_equal. f_equal. lia.
  - rewrite (div16 b 224 14) by lia. cbn [Z.ltb Z.compare Pos.compare Pos.compare_cont Z.eqb Pos.eqb orb].
    rewrite (R1 s0 eq_refl). cbn [bind]. rewrite (R2 s1 eq_refl). cbn [bind]. rewrite lor3 by lia. f_equal. f_equal. lia.
  - rewrite (div16 b 240 15) by lia. cbn [Z.ltb Z.compare Pos.compare Pos.compare_cont Z.eqb Pos.eqb orb].
    rewrite (R1 s0 eq_refl). cbn [bind]. rewrite (R2 s1 eq_refl). cbn [bind]. rewrite (R3 s2 eq_refl). cbn [bind]. rewrite lor4 by lia. f_equal. f_equal. lia.
Qed.

Lemma next_stop pre b rest n : stopper b -> n = Z.of_nat (List.length pre) -> utf8_next (pre ++ b :: rest) n = Ok (0, n + 1).
Proof.
  intros S Hn. unfold utf8_next.
  assert (R0 : rd (pre ++ b :: rest) n = Ok b) by (rewrite <- (rd_at pre (b :: rest) n Hn 0%nat b eq_refl); f_equal; cbn; lia).
  rewrite R0. cbn [bind]. rewrite shiftr4. destruct S as [-> | S]; [reflexivity|].
  assert (8 <= b / 16 < 12) by (split; [apply Z.div_le_lower_bound; lia|apply Z.div_lt_upper_bound; lia]).
  destruct (Z.ltb_spec (b / 16) 8); [lia|]. destruct (Z.eqb_spec (b / 16) 12); [lia|]. destruct (Z.eqb_spec (b / 16) 13); [lia|].
  destruct (Z.eqb_spec (b / 16) 14); [lia|]. destruct (Z.eqb_spec (b / 16) 15); [lia|]. reflexivity.
Qed.

Lemma next_past mem p : Z.of_nat (List.length mem) <= p -> utf8_next mem p = UB.
Proof. intros H. unfold utf8_next. rewrite rd_UB by lia. reflexivity. Qed.

Lemma rd_either {A} (l : list A) i : rd l i = UB \/ exists a, rd l i = Ok a.
Proof. unfold rd. destruct (i <? 0); [left; reflexivity|]. destruct (nth_error l _); [right; eauto|left; reflexivity]. Qed.

(** The last character, completed by the terminator or not. *)
Lemma next_cut pre b t n : ~ stopper b -> octets (b :: t) -> (List.length (b :: t) < takes b)%nat -> n = Z.of_nat (List.length pre) ->
  utf8_next (pre ++ (b :: t) ++ [0]) n = UB \/
  exists c p, utf8_next (pre ++ (b :: t) ++ [0]) n = Ok (c, p) /\ c <> 0 /\ utf8_next (pre ++ (b :: t) ++ [0]) p = UB.
Proof.
  intros S O L Hn. destruct (Nat.eq_dec (Datatypes.S (List.length (b :: t))) (takes b)) as [E|E].
  - right. assert (W : whole ((b :: t) ++ [0])).
    { exists b, (t ++ [0]). split; [reflexivity|]. split; [exact S|]. rewrite app_length. cbn [List.length] in *. lia. }
    assert (O' : octets ((b :: t) ++ [0])) by (apply Forall_app; split; [exact O|constructor; [lia|constructor]]).
    pose proof (next_group pre _ [] n W O' Hn) as N. rewrite app_nil_r in N. do 2 eexists. split; [exact N|].
    split; [pose proof (value_range _ W O'); lia|]. apply next_past. rewrite !app_length. lia.
  - left. unfold utf8_next. pose proof (rd_at pre ((b :: t) ++ [0]) n Hn) as R.
    assert (R0 : rd (pre ++ (b :: t) ++ [0]) n = Ok b) by (rewrite <- (R 0%nat b eq_refl); f_equal; cbn; lia).
    rewrite R0. cbn [bind]. rewrite shiftr4. inversion O as [|? ? Ob Ot]; subst. unfold stopper in S. clear R0.
    assert (U : forall k, Z.of_nat (List.length (b :: t)) < k -> rd (pre ++ (b :: t) ++ [0]) (Z.of_nat (List.length pre) + k) = UB).
    { intros k Hk. apply rd_UB. rewrite !app_length. cbn [List.length] in *. lia. }
    unfold takes in L, E. destruct (Z.ltb_spec b 192); [cbn [List.length] in *; lia|]. destruct (Z.ltb_spec b 224); [cbn [List.length] in *; lia|].
    destruct (Z.ltb_spec b 240).
    + rewrite (div16 b 224 14) by lia. cbn [Z.ltb Z.compare Pos.compare Pos.compare_cont Z.eqb Pos.eqb orb].
      destruct (rd_either (pre ++ (b :: t) ++ [0]) (Z.of_nat (List.length pre) + 1)) as [-> | (a1 & ->)]; [reflexivity|]. cbn [bind].
      rewrite U by (cbn [List.length] in *; lia). reflexivity.
    + rewrite (div16 b 240 15) by lia. cbn [Z.ltb Z.compare Pos.compare Pos.compare_cont Z.eqb Pos.eqb orb].
      destruct (rd_either (pre ++ (b :: t) ++ [0]) (Z.of_nat (List.length pre) + 1)) as [-> | (a1 & ->)]; [reflexivity|]. cbn [bind].
      destruct (rd_either (pre ++ (b :: t) ++ [0]) (Z.of_nat (List.length pre) + 2)) as [-> | (a2 & ->)]; [reflexivity|]. cbn [bind].
      rewrite U by (cbn [List.length] in *; lia). reflexivity.
Qed.

(** The whole loop. *)
Definition decode_step (mem : list Z) (st : Z * Z * list Z) : res (Z * Z * list Z + list Z) :=
  let '(c, p, out) := st in
  if c =? 0 then Ok (inr out) else '(c', p') <- utf8_next mem p ;; Ok (inl (c', p', out ++ [c])).
Lemma utf8_codes_loop s : utf8_codes s = '(c, p) <- utf8_next (c_str s) 0 ;; loop (S (S (List.length (c_str s)))) (decode_step (c_str s)) (c, p, []).
Proof. reflexivity. Qed.

Lemma decode_run mem gs : forall pre r out fuel, mem = pre ++ List.concat gs ++ r -> Forall whole gs -> octets (List.concat gs) ->
  (List.length gs < fuel)%nat ->
  ('(c, p) <- utf8_next mem (Z.of_nat (List.length pre)) ;; loop fuel (decode_step mem) (c, p, out)) =
  ('(c, p) <- utf8_next mem (Z.of_nat (List.length (pre ++ List.concat gs))) ;; loop (fuel - List.length gs) (decode_step mem) (c, p, out ++ values gs)).
Proof.
  induction gs as [|g gs IH]; intros pre r out fuel -> W O Hf.
  { cbn [List.concat values map List.length]. rewrite !app_nil_r, Nat.sub_0_r. reflexivity. }
  inversion W as [|? ? Wg Wr]; subst. cbn [List.concat] in *. apply Forall_app in O. destruct O as [Og Or].
  destruct fuel as [|fuel]; [lia|]. rewrite <- app_assoc at 1. rewrite (next_group pre g (List.concat gs ++ r) _ Wg Og eq_refl). cbn [bind].
  cbn [loop]. unfold decode_step at 1. pose proof (value_range g Wg Og). destruct (Z.eqb_spec (value g) 0); [lia|].
  specialize (IH (pre ++ g) r (out ++ [value g]) fuel). rewrite <- !app_assoc in IH. specialize (IH eq_refl Wr Or).
  rewrite <- Nat2Z.inj_add, <- app_length. cbn [List.length] in *. specialize (IH ltac:(lia)).
  cbn [values map]. unfold values in *. rewrite <- !app_assoc in *. cbn [app] in IH.
  rewrite Nat.sub_succ, <- IH. destruct (utf8_next _ (Z.of_nat (List.length (pre ++ g)))) as [[c p]| | |]; reflexivity.
Qed.

Lemma groups_length gs : Forall whole gs -> (List.length gs <= List.length (List.concat gs))%nat.
Proof.
  induction 1 as [|g gs (b & t & -> & _) _ IH]; [cbn; lia|]. cbn [List.concat List.length]. rewrite app_length. cbn [List.length]. lia.
Qed.

Lemma octets_app a b : octets (a ++ b) <-> octets a /\ octets b.
Proof. apply Forall_app. Qed.

Lemma codes_characters s gs : octets s -> characters s gs -> utf8_codes s = Ok (values gs).
Proof.
  intros O (W & r & -> & Hr). rewrite utf8_codes_loop. unfold c_str. rewrite <- app_assoc. apply octets_app in O. destruct O as [Og Or].
  pose proof (groups_length gs W) as L.
  pose proof (decode_run (List.concat gs ++ r ++ [0]) gs [] (r ++ [0]) [] (S (S (List.length (List.concat gs ++ r ++ [0])))) eq_refl W Og) as R.
  rewrite app_length in *. specialize (R ltac:(lia)). cbn [List.length Z.of_nat] in R. rewrite R. clear R. cbn [app].
  assert (E : exists b t, r ++ [0] = b :: t /\ stopper b).
  { destruct Hr as [-> | (b & t & -> & S)]; [exists 0, []; split; [reflexivity|left; reflexivity]|]. exists b, (t ++ [0]). split; [reflexivity|exact S]. }
  destruct E as (b & t & -> & S). rewrite (next_stop (List.concat gs) b t _ S eq_refl). cbn [bind].
  match goal with |- loop ?n _ _ = _ => destruct n as [|k] eqn:En end; [cbn [List.length] in En; lia|]. reflexivity.
Qed.

Lemma codes_cut s : octets s -> cut s -> utf8_codes s = UB.
Proof.
  intros O (gs & b & t & -> & W & S & L). rewrite utf8_codes_loop. unfold c_str. rewrite <- app_assoc. apply octets_app in O. destruct O as [Og Or].
  pose proof (groups_length gs W) as Lg.
  pose proof (decode_run (List.concat gs ++ (b :: t) ++ [0]) gs [] ((b :: t) ++ [0]) [] (Datatypes.S (Datatypes.S (List.length (List.concat gs ++ (b :: t) ++ [0])))) eq_refl W Og) as R.
  rewrite app_length in *. specialize (R ltac:(lia)). cbn [List.length Z.of_nat] in R.
  cbn [List.length] in *. rewrite R. clear R. cbn [app].
  destruct (next_cut (List.concat gs) b t _ S Or L eq_refl) as [N|(c & p & N & Hc & Np)]; cbn [app] in *; rewrite N; [reflexivity|]. cbn [bind].
  match goal with |- loop ?n _ _ = _ => destruct n as [|k] eqn:En end; [lia|]. cbn [loop]. unfold decode_step at 1.
  destruct (Z.eqb_spec c 0); [contradiction|]. rewrite Np. reflexivity.
Qed.

Theorem decode_outcome s : octets s ->
  (forall gs, characters s gs -> utf8_codes s = Ok (values gs)) /\ (cut s -> utf8_codes s = UB) /\ ((exists gs, characters s gs) \/ cut s).
Proof. intros O. split; [intros gs; apply codes_characters; exact O|]. split; [apply codes_cut; exact O|apply read_total; exact O]. Qed.

(** The dictionary of any words. *)
Lemma values_length gs : Forall whole gs -> vsize (values gs) <= vsize (List.concat gs).
Proof. intros W. unfold values. rewrite vsize_map. pose proof (groups_length gs W). unfold vsize. lia. Qed.

Lemma all_values words : Forall octets words ->
  (exists gss, Forall2 characters words gss /\ map_res utf8_codes words = Ok (map values gss)) \/
  (Exists cut words /\ map_res utf8_codes words = UB).
Proof.
  induction 1 as [|w words Ow _ IH]; [left; exists []; split; [constructor|reflexivity]|].
  destruct (decode_outcome w Ow) as (A & B & [(gs & C)|C]).
  - destruct IH as [(gss & F & E)|(F & E)]; cbn [map_res]; rewrite (A gs C); cbn [bind]; rewrite E.
    + left. exists (gs :: gss). split; [constructor; assumption|reflexivity].
    + right. split; [apply Exists_cons_tl; exact F|reflexivity].
  - right. split; [apply Exists_cons_hd; exact C|]. cbn [map_res]. rewrite (B C). reflexivity.
Qed.

Lemma not_cut s gs : octets s -> characters s gs -> ~ cut s.
Proof. intros O C K. pose proof (codes_characters s gs O C) as A. rewrite (codes_cut s O K) in A. discriminate. Qed.

Lemma values_letters words gss : Forall2 characters words gss -> letters (map values gss) <= letters words.
Proof.
  induction 1 as [|w gs words gss (W & r & -> & _) _ IH]; [apply Z.le_refl|]. unfold letters in *. cbn [map List.concat]. rewrite !vsize_app.
  pose proof (values_length gs W). pose proof (vsize_nonneg r). lia.
Qed.

Lemma trie_of_codes sort codes : is_std_sort (list_ltb Z.ltb) sort -> ~ In [] codes -> letters codes < 4294967296 ->
  exists l t nodes, make_trie (uniq (sort codes)) = Ok t /\ l = uniq (sort codes) /\ flatten t = Ok nodes /\ well_ordered t /\ trie_count t < 4294967296 /\
    (forall w, spells t w <-> In w codes) /\ (forall w, In w l <-> In w codes).
Proof.
  intros Hsort Hne HB. destruct (Hsort codes (list_ltb_strict_weak _)) as [Hp Hs].
  set (l := sort codes) in *. clearbody l.
  assert (P : forall w, In w (uniq l) <-> In w codes).
  { intros w. rewrite uniq_In. split; apply Permutation_in; [apply Permutation_sym; exact Hp|exact Hp]. }
  assert (HL : letters (uniq l) < 4294967296) by (pose proof (uniq_letters l); rewrite <- (letters_perm _ _ Hp) in *; lia).
  destruct (make_trie_ok (uniq l)) as (t & Et & Ot & St & _ & Ct).
  - apply uniq_sorted. exact Hs.
  - rewrite P. exact Hne.
  - intros w Hw. pose proof (length_le_letters _ _ Hw). lia.
  - destruct (flatten_correct t) as (nodes & En & _); [lia|]. exists (uniq l), t, nodes.
    split; [exact Et|]. split; [reflexivity|]. split; [exact En|]. split; [exact Ot|]. split; [lia|]. split; [|exact P].
    intros w. rewrite St. apply P.
Qed.

Lemma trie_empty sort codes : is_std_sort (list_ltb Z.ltb) sort -> In [] codes -> make_trie (uniq (sort codes)) = UB.
Proof.
  intros Hsort Hin. destruct (Hsort codes (list_ltb_strict_weak _)) as [Hp Hs].
  apply (Permutation_in _ Hp) in Hin. set (l := sort codes) in *. clearbody l.
  assert (exists r, uniq l = [] :: r) as (r & ->).
  { destruct l as [|h l]; [destruct Hin|]. destruct h as [|x h]; [apply uniq_head|]. exfalso.
    destruct Hin as [E|Hin]; [discriminate|]. inversion Hs as [|? ? _ F]; subst. rewrite Forall_forall in F. specialize (F [] Hin). discriminate. }
  unfold make_trie. cbn [insert_after]. rewrite vsize_cons. pose proof (vsize_nonneg r).
  destruct (Z.eqb_spec 0 (1 + vsize r)); [lia|]. reflexivity.
Qed.

Lemma values_nil gs : values gs = [] -> gs = [].
Proof. destruct gs; [reflexivity|discriminate]. Qed.
Lemma values_In_nil gss : In [] (map values gss) <-> In [] gss.
Proof.
  rewrite in_map_iff. split; [intros (gs & E & H); apply values_nil in E; subst; exact H|]. intros H. exists []. split; [reflexivity|exact H].
Qed.
Lemma F2_In_r {A B} (R : A -> B -> Prop) l m b : Forall2 R l m -> In b m -> exists a, In a l /\ R a b.
Proof.
  induction 1 as [|x y l m H _ IH]; intros []; [subst; exists x; split; [left; reflexivity|exact H]|].
  destruct (IH H0) as (a & Ha & Hr). exists a. split; [right; exact Ha|exact Hr].
Qed.
Lemma F2_In_l {A B} (R : A -> B -> Prop) l m a : Forall2 R l m -> In a l -> exists b, In b m /\ R a b.
Proof.
  induction 1 as [|x y l m H _ IH]; intros []; [subst; exists y; split; [left; reflexivity|exact H]|].
  destruct (IH H0) as (b & Hb & Hr). exists b. split; [right; exact Hb|exact Hr].
Qed.

Lemma usable_cases words : Forall octets words -> Exists unusable words \/ exists gss, Forall2 characters words gss /\ ~ In [] gss.
Proof.
  induction 1 as [|w words Ow _ IH]; [right; exists []; split; [constructor|intros []]|].
  destruct IH as [IH|(gss & F & N)]; [left; apply Exists_cons_tl; exact IH|].
  destruct (read_total w Ow) as [(gs & C)|C]; [|left; apply Exists_cons_hd; left; exact C].
  destruct gs as [|g gs]; [left; apply Exists_cons_hd; right; exact C|].
  right. exists ((g :: gs) :: gss). split; [constructor; assumption|]. intros [E|E]; [discriminate|contradiction].
Qed.

Lemma codes_of words gss : Forall octets words -> Forall2 characters words gss -> map_res utf8_codes words = Ok (map values gss).
Proof.
  intros O F. induction F as [|w gs words gss C _ IH]; [reflexivity|]. inversion O; subst. cbn [map_res].
  rewrite (codes_characters w gs) by assumption. cbn [bind]. rewrite IH by assumption. reflexivity.
Qed.

Lemma dictionary_unusable sort words : is_std_sort (list_ltb Z.ltb) sort -> Forall octets words -> Exists unusable words ->
  make_dictionary sort words = UB.
Proof.
  intros Hsort O X. unfold make_dictionary. destruct (all_values words O) as [(gss & F & E)|(_ & E)]; rewrite E; [|reflexivity]. cbn [bind].
  rewrite trie_empty; [reflexivity|exact Hsort|]. apply Exists_exists in X. destruct X as (w & Hw & U).
  destruct (F2_In_l _ _ _ w F Hw) as (gs & Hg & C). pose proof (proj1 (Forall_forall _ _) O w Hw) as Ow.
  destruct U as [U|U]; [destruct (not_cut w gs Ow C U)|].
  pose proof (codes_characters w gs Ow C) as A. rewrite (codes_characters w [] Ow U) in A. injection A as A. symmetry in A. apply values_nil in A. subst gs.
  apply values_In_nil. exact Hg.
Qed.

Lemma dictionary_values sort words gss : is_std_sort (list_ltb Z.ltb) sort -> Forall octets words -> letters words < 4294967296 ->
  Forall2 characters words gss -> ~ In [] gss ->
  exists nodes, make_dictionary sort words = Ok nodes /\ links_inside nodes /\
    forall codes, exists b, contains nodes codes = Ok b /\ (b = true <-> In codes (map values gss)).
Proof.
  intros Hsort O HB F N. unfold make_dictionary. rewrite (codes_of words gss O F). cbn [bind].
  destruct (trie_of_codes sort (map values gss) Hsort) as (l & t & nodes & Et & _ & En & Ot & Ct & St & _).
  - rewrite values_In_nil. exact N.
  - pose proof (values_letters words gss F). lia.
  - rewrite Et. cbn [bind]. exists nodes. split; [exact En|]. destruct (flatten_correct t Ct) as (nodes' & En' & _ & Hl & _ & _ & _ & Hc).
    assert (nodes' = nodes) by congruence. subst nodes'. split; [exact Hl|]. intros codes. destruct (Hc Ot codes) as (b & Eb & Hb). exists b.
    split; [exact Eb|]. rewrite Hb. apply St.
Qed.

Theorem dictionary_outcome sort words : is_std_sort (list_ltb Z.ltb) sort -> Forall octets words -> letters words < 4294967296 ->
  (Exists unusable words /\ make_dictionary sort words = UB) \/
  exists gss nodes, Forall2 characters words gss /\ ~ In [] gss /\ make_dictionary sort words = Ok nodes /\ links_inside nodes /\
    forall codes, exists b, contains nodes codes = Ok b /\ (b = true <-> In codes (map values gss)).
Proof.
  intros Hsort O HB. destruct (usable_cases words O) as [X|(gss & F & N)].
  - left. split; [exact X|]. apply dictionary_unusable; assumption.
  - right. destruct (dictionary_values sort words gss Hsort O HB F N) as (nodes & E & L & C). exists gss, nodes.
    split; [exact F|]. split; [exact N|]. split; [exact E|]. split; [exact L|exact C].
Qed.
