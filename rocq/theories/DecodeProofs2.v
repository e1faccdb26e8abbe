From Verif Require Import Base BaseProofs SortModel SortProofs DatasModel UtfModel UtfSpec UtfProofs StreamModel StreamProofs DictIoModel DictIoSpec DictIoProofs
  TrieModel TrieSpec TrieProofs FlatTrieProofs DictionaryProofs LearnModel LearnSpec LearnProofs LearnProofs2 DecodeSpec DecodeProofs.
From Coq Require Import Permutation Sorted.

Lemma whole_octets gs g : octets (List.concat gs) -> In g gs -> octets g.
Proof.
  intros O H. apply Forall_forall. intros c Hc. unfold octets in O. rewrite Forall_forall in O. apply O. apply in_concat. exists g. split; assumption.
Qed.

Lemma values_storable sort words gss nodes : is_std_sort (list_ltb Z.ltb) sort -> Forall octets words -> letters words < 4294967296 ->
  Forall2 characters words gss -> ~ In [] gss -> make_dictionary sort words = Ok nodes -> Forall storable_node nodes.
Proof.
  intros Hsort O HB F N HM. unfold make_dictionary in HM. rewrite (codes_of words gss O F) in HM. cbn [bind] in HM.
  destruct (trie_of_codes sort (map values gss) Hsort) as (l & t & nodes' & Et & El & En & _ & _ & _ & Hl).
  - rewrite values_In_nil. exact N.
  - pose proof (values_letters words gss F). lia.
  - rewrite Et in HM. cbn [bind] in HM. apply (flatten_storable t); [|exact HM]. rewrite <- El in Et.
    intros n Hn. unfold make_trie in Et. refine (insert_after_valued _ l _ _ _ _ _ _ _ Et _ n Hn); [|intros k []].
    intros w c Hw Hc. apply Hl in Hw. apply in_map_iff in Hw. destruct Hw as (gs & <- & Hin). apply in_map_iff in Hc. destruct Hc as (g & <- & Hg).
    destruct (F2_In_r _ _ _ gs F Hin) as (v & Hv & W & r & -> & _). rewrite Forall_forall in O, W.
    specialize (O _ Hv). apply octets_app in O. pose proof (value_range g (W g Hg) (whole_octets gs g (proj1 O) Hg)). lia.
Qed.

Lemma lines_octets text ls : text_lines text ls -> octets text -> Forall octets ls /\ letters ls <= vsize text.
Proof.
  intros (full & tail & -> & _ & ->) O. apply octets_app in O. destruct O as [Of Ot].
  assert (T : Forall octets (match tail with [] => [] | _ => [tail] end) /\ letters (match tail with [] => [] | _ => [tail] end) <= vsize tail).
  { destruct tail as [|c tail]; [split; [constructor|apply Z.le_refl]|]. split; [constructor; [exact Ot|constructor]|].
    unfold letters. cbn [List.concat]. rewrite app_nil_r. apply Z.le_refl. }
  destruct T as [T1 T2].
  assert (F : Forall octets full /\ letters full <= vsize (flat_map (fun l => l ++ [10]) full)).
  { clear -Of. induction full as [|l full IH]; [split; [constructor|apply Z.le_refl]|]. cbn [flat_map] in *. apply octets_app in Of. destruct Of as [Ol Of].
    destruct (IH Of) as [A B]. split; [constructor; [apply octets_app in Ol; apply Ol|exact A]|].
    unfold letters in *. cbn [List.concat]. rewrite !vsize_app. change (vsize [10]) with 1. lia. }
  destruct F as [F1 F2]. split; [apply Forall_app; split; assumption|]. unfold letters in *. rewrite concat_app, !vsize_app. lia.
Qed.

(** The dictionary program, whatever the bytes of the file. *)
Theorem dictionary_file_outcome sort before text ls after : is_std_sort (list_ltb Z.ltb) sort -> (forall f, In f before -> f = None) -> text_lines text ls ->
  octets text -> vsize text < 4294967296 ->
  (Exists unusable ls /\ dictionary_of_files sort (before ++ Some text :: after) = UB) \/
  exists gss out nodes, Forall2 characters ls gss /\ ~ In [] gss /\ dictionary_of_files sort (before ++ Some text :: after) = Ok out /\
    load_file read_dict out = Ok nodes /\ links_inside nodes /\
    forall codes, exists b, contains nodes codes = Ok b /\ (b = true <-> In codes (map values gss)).
Proof.
  intros Hsort Hb Ht O HB. destruct (lines_octets text ls Ht O) as [Ol Ll]. assert (HB' : letters ls < 4294967296) by lia.
  unfold dictionary_of_files. rewrite (words_first before text ls after Hb Ht). cbn [bind].
  destruct (dictionary_outcome sort ls Hsort Ol HB') as [(X & E)|(gss & nodes & F & N & E & L & C)]; rewrite E; cbn [bind].
  - left. split; [exact X|reflexivity].
  - right. exists gss, (write_dict nodes), nodes. split; [exact F|]. split; [exact N|]. split; [reflexivity|]. split; [|split; [exact L|exact C]].
    apply dict_file_round_trip. exact (values_storable sort ls gss nodes Hsort Ol HB' F N E).
Qed.
