(** Properties C52 and C60: the replacement rules. *)
From Verif Require Import Base StreamModel GlyphIoSpec ReplaceModel ReplaceSpec ReplaceProofs RulesTextSpec RulesTextProofs.

(** C52: applying a rule terminates unless the text and the replacement both
    contain the pattern. *)
Theorem C52_terminates_iff : forall pat rep text,
  (exists fuel r, replace_rule fuel (pat, rep) text = Ok r) <-> ~ (occurs pat text /\ occurs pat rep).
Proof. exact rule_ends_iff. Qed.
Print Assumptions C52_terminates_iff.
(** Full statement: for all rules.  It holds when no replacement contains its
    pattern. *)
Theorem C52_words_partial : forall rules text, (forall pat rep, In (pat, rep) rules -> ~ occurs pat rep) ->
  exists fuel r, replace_words fuel text rules = Ok r.
Proof. exact words_end. Qed.
Print Assumptions C52_words_partial.
(** The loop never ends otherwise, in particular for the empty pattern. *)
Theorem C52_diverges_refuted : forall pat rep text fuel, occurs pat text -> occurs pat rep -> replace_rule fuel (pat, rep) text = NoFuel.
Proof. exact rule_diverges. Qed.
Print Assumptions C52_diverges_refuted.
(** What is done is a sequence of replacements, at most one for each character. *)
Theorem C52_rewrites : forall pat rep text fuel, ~ occurs pat text \/ ~ occurs pat rep -> (List.length text < fuel)%nat ->
  exists r, replace_rule fuel (pat, rep) text = Ok r /\ rewrites_star pat rep text r.
Proof. exact rule_ends. Qed.
Print Assumptions C52_rewrites.
(** The pattern no longer occurs.  Full statement: for all rules.  Proved when no
    end of the pattern starts the replacement or starts with it. *)
Theorem C52_gone_partial : forall pat rep text fuel r, no_overlap pat rep -> replace_rule fuel (pat, rep) text = Ok r -> ~ occurs pat r.
Proof. exact rule_gone. Qed.
Print Assumptions C52_gone_partial.
(** The text before the last replacement is not searched again. *)
Theorem C52_gone_refuted :
  replace_rule 10 (str "ab", []) (str "aabb") = Ok (str "ab") /\
  replace_rule 10 (str "ab", str "b") (str "aab") = Ok (str "ab").
Proof. split; vm_compute; reflexivity. Qed.
Print Assumptions C52_gone_refuted.
Example C52_nonvacuous :
  ~ occurs (str "rn") (str "m") /\ no_overlap (str "rn") (str "m") /\
  replace_words 20 (str "corner of burning") [(str "rn", str "m"); (str "0", str "O")] = Ok (str "comer of buming").
Proof.
  split; [intros (u & v & E); destruct u as [|a [|b u]]; discriminate E|]. split; [|vm_compute; reflexivity].
  intros a b E Ha Hb. destruct a as [|x [|y a]]; [congruence| |].
  - injection E as <- <-. split; intros c H; [discriminate H|]. injection H as H _. discriminate H.
  - destruct a; [|destruct a; discriminate E]. injection E as _ _ <-. congruence.
Qed.

(** C60: a file of rules is read as written. *)
Theorem C60_rules_read : forall rules, Forall good_rule rules ->
  exists s, read_replacements (open_stream (rules_text rules)) = Ok (rules, s) /\ is_eof s = true.
Proof. exact read_rules_written. Qed.
Print Assumptions C60_rules_read.
Example C60_nonvacuous : Forall good_rule [(str "rn", str "m"); (str "~", [])] /\
  rules_text [(str "rn", str "m"); (str "~", [])] = str "rn m" ++ [10] ++ str "~" ++ [10].
Proof.
  assert (P : forall w, w <> [] -> forallb (fun c => 33 <=? c) w = true -> plain_text w).
  { intros w Hw H. split; [exact Hw|]. rewrite forallb_forall in H. intros c Hc. specialize (H c Hc). lia. }
  split; [|reflexivity]. apply Forall_cons; [|apply Forall_cons; [|apply Forall_nil]].
  - split; [|right]; apply P; reflexivity || discriminate.
  - split; [|left; reflexivity]. apply P; reflexivity || discriminate.
Qed.
Definition rules_read (text : list Z) : option (list (list Z * list Z)) :=
  match read_replacements (open_stream text) with Ok (rules, _) => Some rules | _ => None end.
(** Without the last end of line, a pattern without replacement gets the
    replacement of the rule before. *)
Theorem C60_last_line_refuted :
  rules_text [(str "rn", str "m"); (str "~", [])] = (str "rn m" ++ [10] ++ str "~") ++ [10] /\
  rules_read (str "rn m" ++ [10] ++ str "~") = Some [(str "rn", str "m"); (str "~", str "m")].
Proof. split; vm_compute; reflexivity. Qed.
Print Assumptions C60_last_line_refuted.
(** A space, or a carriage return, at the end of a pattern without replacement
    shifts or loses the rules after it. *)
Theorem C60_space_refuted :
  rules_read (str "~ " ++ [10] ++ str "rn m" ++ [10]) = Some [(str "~", str "rn"); (str "m", [])] /\
  rules_read (str "~" ++ [13; 10] ++ str "rn m" ++ [13; 10]) = Some [(str "~", str "rn")].
Proof. split; vm_compute; reflexivity. Qed.
Print Assumptions C60_space_refuted.

(** Whatever its bytes, a file has exactly one list of rules, which are the ones read, to
    the end of the file. *)
Theorem C60_outcome : forall text, exists rules s, rules_in [] text rules /\ (forall rules', rules_in [] text rules' -> rules' = rules) /\
  read_replacements (open_stream text) = Ok (rules, s) /\ is_eof s = true /\ is_fail s = true.
Proof. exact rules_outcome. Qed.
Print Assumptions C60_outcome.
Example C60_outcome_nonvacuous :
  rules_read (str "a b" ++ [9; 10] ++ str "c" ++ [9; 10] ++ str "d e  f") = Some [(str "a", str "b"); (str "c", str "d"); (str "e", str "f")] /\
  rules_read (str "a b c ") = Some [(str "a", str "b")] /\ rules_read [10; 32] = Some [].
Proof. repeat split; vm_compute; reflexivity. Qed.
