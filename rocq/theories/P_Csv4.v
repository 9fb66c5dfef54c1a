(** From the contents of a CSV file to a dataframe. *)
From Verif Require Export P_Csv3.

Section frame.
Context {crt : CsvRT} {rt : GoRT}.

Definition cell_list (header : list string) (recs : list (list string)) (c : string) : list string :=
  match index_of c header with
  | Some col => (fun r : list string => default "" (r !! col)) <$> recs
  | None => []
  end.
Definition wide (header : list string) (recs : list (list string)) : Prop :=
  Forall (fun r : list string => length header <= length r) recs.

Lemma cell_list_cells header recs c : c ∈ header -> wide header recs -> cells_of header recs c (cell_list header recs c).
Proof.
  intros Hc F. destruct (cells_of_total header recs c Hc F) as (l & Hl & _).
  assert (cell_list header recs c = l) as ->; [|done]. destruct Hl as (col & H1 & H2 & H3).
  unfold cell_list. assert (index_of c header = Some col) as -> by (by apply index_of_some).
  clear -H3. induction H3 as [|r s recs l Hr H IH]; [done|]. rewrite fmap_cons, IH, Hr. done.
Qed.
Lemma cell_list_length header recs c : c ∈ header -> length (cell_list header recs c) = length recs.
Proof. intros Hc. destruct (index_of_is_some c header Hc) as [col E]. unfold cell_list. rewrite E. apply fmap_length. Qed.

Definition Kof (o : rspec) header recs (c : string) : kind := pure_kind o (cell_list header recs c).
Definition Vof (o : rspec) header recs (c : string) : list val :=
  pure_vals (rs_missing o) (Kof o header recs c) (cell_list header recs c).

Lemma known_wide o header recs c : c ∈ header -> wide header recs ->
  known (Kof o header recs) (Vof o header recs) o header recs c.
Proof.
  intros Hc F. split; [by apply cells_of_native, cell_list_cells|]. apply pure_vals_typed.
Qed.

Lemma from_csv_table o header recs logs h : wide header recs ->
  concat logs ≡ₚ elements (csv_names o header) ->
  exists r h1, from_csv o header recs logs h = Ok (r, h1) /\
    forall ord, ord ≡ₚ map_to_list (mp h1 (r_maps r)) ->
    exists d h2 cols strs, to_dataframe_ord ord r h1 = Ok (d, h2) /\ wf h2 d /\ ext h h2 /\
      abs h2 d = Table (if decide (csv_names o header = ∅) then 0 else length recs) cols strs (rs_enc o) (max_cpu (rs_cpu o)) /\
      (forall k c vs, cols !! (k, c) = Some vs <-> c ∈ csv_names o header /\ Kof o header recs c = k /\ Vof o header recs c = vs) /\
      (forall c, c ∈ strs <-> c ∈ csv_names o header /\ Kof o header recs c = KObj).
Proof.
  intros F Hp. assert (Hin : forall c, c ∈ concat logs <-> c ∈ csv_names o header).
  { intros c. by rewrite Hp, elem_of_elements. }
  assert (Hhd : forall c, c ∈ csv_names o header -> c ∈ header).
  { intros c. unfold csv_names. rewrite elem_of_difference, elem_of_list_to_set. tauto. }
  destruct (from_csv_spec (Kof o header recs) (Vof o header recs) o header recs h logs) as (r & h1 & E & X & R & S & H & Mk & En & Cp).
  { apply Forall_forall. intros ks Hks. apply Forall_forall. intros c Hc. apply known_wide; [|done]. apply Hhd, Hin.
    apply elem_of_list_In, in_concat. exists ks. by rewrite <- !elem_of_list_In. }
  exists r, h1. split; [done|]. intros ord Ho. pose proof (to_dataframe_ord_spec h1 r ord R S Ho) as HD.
  assert (Hl : forall k vs, raw_cols h1 r !! k = Some vs -> length vs = length recs).
  { intros [k c] vs Hk. apply H in Hk as (Hc & _ & <-). unfold Vof. rewrite pure_vals_length. apply cell_list_length, Hhd, Hin, Hc. }
  destruct (to_dataframe_ord ord r h1) as [[d h2]|].
  2: { destruct HD as (k1 & k2 & v1 & v2 & H1 & H2 & Hne). apply Hl in H1, H2. congruence. }
  destruct HD as (n & Hn & Hz & Wd & Xd & _ & _ & Ha). exists d, h2, (raw_cols h1 r), (ostr h1 (r_strs r)).
  split; [done|]. split; [done|]. split; [by eapply ext_trans|]. split; [|split].
  - rewrite Ha, En, Cp. f_equal. destruct (decide (csv_names o header = ∅)) as [E0|E0].
    + apply Hz. apply map_empty. intros [k c]. destruct (raw_cols h1 r !! (k, c)) as [vs|] eqn:Ek; [|done].
      apply H in Ek as (Hc & _). apply Hin in Hc. set_solver.
    + apply set_choose_L in E0 as [c Hc]. assert (Hk : raw_cols h1 r !! (Kof o header recs c, c) = Some (Vof o header recs c)).
      { apply H. split; [by apply Hin|done]. }
      rewrite <- (Hn _ _ Hk). by apply (Hl _ _ Hk).
  - intros k c vs. rewrite (H k c vs), Hin. done.
  - intros c. rewrite (Mk c), Hin. done.
Qed.
End frame.

(** ** Numbers as text *)
From Coq Require Import Strings.Ascii.

Lemma digit_char x : (x < 10)%N -> digit (pretty_N_char x) = Some (Z.of_N x).
Proof.
  intros H. assert (x = 0 \/ x = 1 \/ x = 2 \/ x = 3 \/ x = 4 \/ x = 5 \/ x = 6 \/ x = 7 \/ x = 8 \/ x = 9)%N as Hx by lia.
  destruct Hx as [->|[->|[->|[->|[->|[->|[->|[->|[->| ->]]]]]]]]]; reflexivity.
Qed.
Lemma parse_pretty_go x : forall s, parse_digits 0 (pretty_N_go x s) = parse_digits (Z.of_N x) s.
Proof.
  induction (N.lt_wf_0 x) as [x _ IH]; intros s. destruct (decide (x = 0)%N) as [->|Hx]; [by rewrite pretty_N_go_0|].
  rewrite pretty_N_go_step by lia. rewrite IH by (apply N.div_lt; lia). cbn [parse_digits].
  rewrite digit_char by (apply N.mod_lt; lia). f_equal.
  pose proof (N.div_mod x 10 ltac:(lia)). lia.
Qed.
Lemma parse_pretty_N x : parse_nat (pretty x) = Some (Z.of_N x).
Proof.
  unfold pretty, pretty_N, parse_nat. destruct (decide (x = 0)%N) as [->|Hx]; [done|].
  rewrite parse_pretty_go. cbn [parse_digits]. rewrite decide_False; [done|]. intros E.
  pose proof (parse_pretty_go x "") as H. rewrite E in H. simpl in H. injection H as H. lia.
Qed.
(** A number does not start with a sign. *)
Lemma parse_nat_unsigned s z : parse_nat s = Some z -> parse_int s = if decide (- 2 ^ 63 <= z < 2 ^ 63)%Z then Some z else None.
Proof.
  intros H. unfold parse_int. destruct s as [|a t]; [done|].
  assert (Hd : is_Some (digit a)).
  { unfold parse_nat in H. rewrite decide_False in H by done. cbn [parse_digits] in H. destruct (digit a); [by eexists|done]. }
  assert (E : match String a t with
    | String "+"%char t => parse_nat t
    | String "-"%char t => Z.opp <$> parse_nat t
    | _ => parse_nat (String a t)
    end = parse_nat (String a t)).
  { destruct a as [[] [] [] [] [] [] [] []]; try reflexivity; by destruct Hd. }
  rewrite E, H. done.
Qed.
Definition int64 (z : Z) : Prop := (- 2 ^ 63 <= z < 2 ^ 63)%Z.
Lemma parse_pretty_Z z : int64 z -> parse_int (pretty z) = Some z.
Proof.
  unfold int64. intros Hz. destruct z as [|p|p].
  - done.
  - change (pretty (Z.pos p)) with (pretty (N.pos p)). rewrite (parse_nat_unsigned _ _ (parse_pretty_N (N.pos p))). by rewrite decide_True.
  - change (pretty (Z.neg p)) with (String "-"%char (pretty (N.pos p))). unfold parse_int. rewrite parse_pretty_N. simpl.
    by rewrite decide_True.
Qed.
Lemma parse_bool_some s b : parse_bool s = Some b -> s ∈ ["1"; "t"; "T"; "TRUE"; "true"; "True"; "0"; "f"; "F"; "FALSE"; "false"; "False"].
Proof.
  unfold parse_bool. destruct (decide _) as [H|_]; [intros _; set_solver|]. destruct (decide _) as [H|_]; [intros _; set_solver|done].
Qed.
Lemma parse_bool_pretty z : int64 z -> is_Some (parse_bool (pretty z)) <-> z = 0%Z \/ z = 1%Z.
Proof.
  intros Hz. split.
  - intros [b Hb%parse_bool_some]. pose proof (parse_pretty_Z z Hz) as Hp.
    repeat (apply elem_of_cons in Hb as [Hb|Hb]; [rewrite Hb in Hp; vm_compute in Hp; try discriminate; injection Hp as <-; auto|]).
    by apply elem_of_nil in Hb.
  - intros [-> | ->]; by eexists.
Qed.

(** ** ToCSVDir *)
Lemma parse_zero_pad s : forall n, parse_digits 0 (Nat.iter n (String "0"%char) s) = parse_digits 0 s.
Proof. induction n as [|n IH]; [done|]. simpl. exact IH. Qed.
Lemma append_inj_r s1 : forall s2 t, s1 +:+ t = s2 +:+ t -> s1 = s2.
Proof.
  assert (L : forall a b, String.length (a +:+ b) = String.length a + String.length b).
  { induction a as [|x a IH]; intros b; [done|]. simpl. by rewrite IH. }
  induction s1 as [|a s1 IH]; intros [|b s2] t E; try done.
  - apply (f_equal String.length) in E. rewrite !L in E. simpl in E. lia.
  - apply (f_equal String.length) in E. rewrite !L in E. simpl in E. lia.
  - simpl in E. injection E as -> E. f_equal. by eapply IH.
Qed.
Lemma pretty_nat_digits (i : nat) : parse_digits 0 (pretty i) = Some (Z.of_nat i).
Proof.
  pose proof (parse_pretty_N (N.of_nat i)) as H. unfold parse_nat in H. change (pretty (N.of_nat i)) with (pretty i) in H.
  destruct (decide _); [done|]. rewrite H. f_equal. lia.
Qed.
