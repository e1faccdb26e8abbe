(** Property C68: the rate of unrecognised characters that is printed. *)
From Verif Require Import Base BaseProofs DatasModel FloatModel StratModel ZoneModel PipelineModel ReportModel ReportSpec ReportProofs.
From Coq Require Import SpecFloat.

(** C68, full statement: the rate printed after the text is the percentage of
    characters that are not recognised.  Proved when all are recognised, or when
    there is only one character. *)
Theorem C68_percentage_partial : forall count size, 0 <= count -> count * 100 < 4294967296 -> 0 < size < 4294967296 ->
  count = 0 \/ size = 1 -> unrecognized_rate count size = percentage count size.
Proof. exact rate_percentage. Qed.
Print Assumptions C68_percentage_partial.
(** What is printed: a hundred times the number of unrecognised characters. *)
Theorem C68_rate : forall rt cx glyphs datas image lines dict f,
  report rt cx glyphs datas image lines dict = Ok f ->
  0 <= f_unrecognized f -> f_unrecognized f * 100 < 4294967296 -> f_count f <> 0 ->
  f_rate f = double_of (100 * f_unrecognized f).
Proof. exact report_rate. Qed.
Print Assumptions C68_rate.
(** One unrecognised character of four: 100 is printed, the percentage is 25. *)
Theorem C68_percentage_refuted : unrecognized_rate 1 4 = d100 /\ percentage 1 4 = double_of 25 /\ d100 <> double_of 25.
Proof. split; [|split]; vm_compute; congruence. Qed.
Print Assumptions C68_percentage_refuted.
(** A line without characters: the rate is not a number. *)
Theorem C68_empty_refuted : unrecognized_rate 0 0 = S754_nan.
Proof. vm_compute. reflexivity. Qed.
Print Assumptions C68_empty_refuted.
(** The product wraps around. *)
Theorem C68_wraps_refuted : unrecognized_rate 42949673 42949673 = double_of 4.
Proof. vm_compute. reflexivity. Qed.
Print Assumptions C68_wraps_refuted.

Example C68_nonvacuous : unrecognized_rate 3 1000 = double_of 300 /\ percentage 3 1000 <> double_of 300 /\ unrecognized_rate 0 7 = percentage 0 7.
Proof. split; [|split]; vm_compute; congruence. Qed.
