(** C95, continued: what reading a directory ends with. *)
From Verif Require Import M_Output.
From Verif Require Import P_Exec.
From Verif Require Import P_CsvMain P_TextMain Spec_Output Spec_Output2 P_OutputMain P_Base P_Check.

Lemma csv_name_inv s : csv_name s = true -> exists n, no_slash n /\ s = n +:+ ".csv".
Proof.
  induction s as [|c s IH]; [done|]. cbn [csv_name]. intros [H|H]%orb_true_iff.
  - apply bool_decide_eq_true in H. exists "". by rewrite H.
  - apply andb_true_iff in H as [H1 H2]. destruct (IH H2) as (n & Hn & ->). exists (String c n). split; [|done].
    split; [|done]. intros ->. done.
Qed.
Lemma strip_inv p : forall s r, strip_dir p s = Some r -> s = p +:+ r.
Proof.
  induction p as [|a p IH]; intros s r; [by intros [= ->]|]. destruct s as [|b s]; [done|]. cbn [strip_dir].
  destruct (decide (a = b)) as [->|]; [|done]. intros E. by rewrite (IH _ _ E).
Qed.
Lemma in_dir_iff dir p : in_dir dir p = true <-> exists name, no_slash name /\ p = dir +:+ "/" +:+ name +:+ ".csv".
Proof.
  unfold in_dir. split.
  - destruct (strip_dir _ p) as [s|] eqn:E; [|done]. intros (n & Hn & ->)%csv_name_inv. exists n. split; [done|].
    apply strip_inv in E. by rewrite E, !string_app_assoc.
  - intros (n & Hn & ->). rewrite (string_app_assoc dir), strip_app. by apply csv_name_app.
Qed.
Lemma glob_files dir fs p : p ∈ glob_csv dir fs <-> exists text, csv_file fs dir p text.
Proof.
  unfold glob_csv, sort_strings. rewrite merge_sort_Permutation, elem_of_list_filter, elem_of_elements, in_dir_iff.
  unfold csv_file. split.
  - intros [H Hs%elem_of_dom]. destruct Hs as [text E]. by exists text.
  - intros (text & E & H). split; [done|]. apply elem_of_dom. by exists text.
Qed.

Section dir.
Context {crt : CsvRT} {rt : GoRT}.
Lemma read_none dl o fs dir p text : csv_file fs dir p text -> read_split o (disk_content dl fs) p = None <-> unreadable dl o text.
Proof.
  intros [E _]. unfold read_split, disk_content, unreadable. rewrite E. cbn [mbind option_bind].
  destruct (csv_records dl text) as [[|r rs]|]; cbn [mbind option_bind]; [| |by split; [left|]].
  - unfold csv_split. destruct (rs_header o); [by split; [right|]|]. split; [done|]. by intros [|[_ ?]].
  - unfold csv_split. destruct (rs_header o); (split; [done|]); by intros [|[? _]].
Qed.

Lemma C95_outcome_main : forall (dl : dialect) (o : rspec) (dir : string) (fs : disk) (arrival : list string) (logs : list (list (list string))) (h : heap),
  (forall p, p ∈ arrival <-> exists text, csv_file fs dir p text) ->
  let good := (exists p text, csv_file fs dir p text) /\ forall p text, csv_file fs dir p text -> ~ unreadable dl o text in
  match from_csv_dir dl o dir fs arrival logs h with
  | Ok (DNil, h') => h' = h /\ forall p text, ~ csv_file fs dir p text
  | Ok (DError, h') => h' = h /\ exists p text, csv_file fs dir p text /\ unreadable dl o text
  | Ok (DRaw _, _) => good
  | Panic => good
  end.
Proof.
  intros dl o dir fs arrival logs h Harr good. unfold from_csv_dir, pattern_paths. rewrite regular_all.
  pose proof (glob_files dir fs) as HG. destruct (glob_csv dir fs) as [|p1 [|p2 ps]].
  - cbn. split; [done|]. intros p text Hp. assert (Hx : p ∈ []) by (apply HG; by exists text). by apply elem_of_nil in Hx.
  - destruct (proj1 (HG p1)) as [text Ht]; [by apply elem_of_list_singleton|].
    pose proof (read_none dl o fs dir p1 text Ht) as HN. destruct (read_split o (disk_content dl fs) p1) as [[header recs]|].
    + assert (HG1 : good).
      { split; [by exists p1, text|]. intros p t Hp. assert (p = p1) as -> by (apply elem_of_list_singleton, HG; by exists t).
        destruct Ht as [Ht _], Hp as [Hp _]. rewrite Ht in Hp. injection Hp as <-. by rewrite <- HN. }
      unfold bind. by destruct (from_csv _ _ _ _ h) as [[r h']|].
    + cbn. split; [done|]. exists p1, text. split; [done|]. by apply HN.
  - unfold pattern_result. destruct (mapM snd _) as [info|] eqn:EM.
    + assert (HG1 : good).
      { split; [destruct (proj1 (HG p1)) as [text Ht]; [by left|by exists p1, text]|]. intros p t Hp.
        rewrite <- (read_none dl o fs dir p t Hp). intros Hn. apply mapM_Some_1 in EM.
        assert (Hin : p ∈ arrival) by (apply Harr; by exists t). apply elem_of_list_lookup in Hin as [i Hi].
        destruct (Forall2_lookup_l _ _ _ i (p, read_split o (disk_content dl fs) p) EM) as (x & _ & Hx); [by rewrite list_lookup_fmap, Hi|].
        cbn [snd] in Hx. congruence. }
      unfold bind. by destruct (from_csv_files _ _ h) as [[r h']|].
    + cbn. split; [done|]. apply mapM_None in EM. apply Exists_exists in EM as ([p x] & Hp & Hx). cbn [snd] in Hx.
      apply elem_of_list_fmap in Hp as (p' & [= -> ->] & Hp). apply Harr in Hp as [t Ht].
      exists p', t. split; [done|]. by apply (read_none dl o fs dir p' t Ht).
Qed.
End dir.

Section wit.
Local Existing Instances ex_crt ex_rt.
Definition d95 : disk := <["out/a.csv" := ""]> (<["out/x/b.csv" := "p"]> (<["out/c.txt" := "q"]> ∅)).
Lemma C95_outcome_check_main : (forall p, p ∈ ["out/a.csv"] <-> exists text, csv_file d95 "out" p text) /\
  unreadable plain_d ro0 "" /\ from_csv_dir plain_d ro0 "out" d95 ["out/a.csv"] [] ex_h = Ok (DError, ex_h) /\
  from_csv_dir plain_d ro0 "elsewhere" d95 [] [] ex_h = Ok (DNil, ex_h).
Proof.
  split; [|split; [right; split; by vm_compute|split; by vm_compute]].
  intros p. rewrite <- glob_files. assert (E : glob_csv "out" d95 = ["out/a.csv"]) by (by vm_compute). by rewrite E.
Qed.
End wit.
