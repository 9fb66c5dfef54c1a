(** Splitting and joining, views of views: the property theorems C113 and
    C114. *)
From Coq Require Import Reals.
From Flocq Require Raux.
From Verif Require P_Float.
From Verif Require Import P_AlgebraMain.
Open Scope nat_scope.

(** C113 RowConcat of the parts of SplitView or SplitTrainTestViews shows the
    same table, in memory of its own, but for the text encoding. *)
Theorem C113_split_join : forall (rt : GoRT) (h : heap) (d : dframe) (b : Z) vs h1,
  wf h d -> split_view d b h = Ok (vs, h1) ->
  exists w h2, row_concat vs h1 = Ok (Some w, h2) /\ abs h2 w = t_no_enc (abs h d) /\ wf h2 w /\ preserved h h2 /\ independent h1 h2 w.
Proof. exact C113_split_join_main. Qed.
Print Assumptions C113_split_join.
Theorem C113_train_test : forall (rt : GoRT) (h : heap) (d : dframe) (r : f64) train test h1,
  wf h d -> (Z.of_nat (num_rows d) <= 2 ^ 53)%Z -> valid_binary 53 1024 r = true -> f64_isnan r = false ->
  split_train_test d r h = Ok ((train, test), h1) ->
  exists w h2, row_concat [train; test] h1 = Ok (Some w, h2) /\ abs h2 w = t_no_enc (abs h d) /\ wf h2 w /\ preserved h h2 /\ independent h1 h2 w.
Proof. exact C113_train_test_main. Qed.
Print Assumptions C113_train_test.
Theorem C113_shuffled : forall (rt : GoRT) (rnd : nat -> nat) (h : heap) (d : dframe) (b : Z) v h1 vs h2,
  wf h d -> shuffle_view rnd d h = Ok (v, h1) -> split_view v b h1 = Ok (vs, h2) ->
  exists w h3 p, row_concat vs h2 = Ok (Some w, h3) /\ p ≡ₚ seq 0 (num_rows d) /\ abs h3 w = t_no_enc (t_select p (abs h d)).
Proof. exact C113_shuffled_main. Qed.
Print Assumptions C113_shuffled.
Theorem C113_split_n_refuted : exists (h : heap) (d : dframe) vs h1 h2, wf h d /\ num_rows d = 4 /\
  split_n_view (rt := ex_rt) d 3 h = Ok (vs, h1) /\ row_concat vs h1 = Ok (None, h2).
Proof. exact C113_split_n_refuted_main. Qed.
Print Assumptions C113_split_n_refuted.
(** C114 Views of views: positions compose; rows and columns can be selected in
    either order. *)
Theorem C114_index_index : forall (rt : GoRT) (h : heap) (d : dframe) (l m : list Z) v h1 w h2,
  wf h d -> index_view d l h = Ok (v, h1) -> index_view v m h1 = Ok (w, h2) ->
  exists w' h', index_view d ((fun j => default 0%Z (l !! Z.to_nat j)) <$> m) h = Ok (w', h') /\ abs h' w' = abs h2 w.
Proof. exact C114_index_index_main. Qed.
Print Assumptions C114_index_index.
Theorem C114_slice_slice : forall (rt : GoRT) (h : heap) (d : dframe) (a b c e : Z),
  wf h d -> (0 <= a <= b)%Z -> (b <= Z.of_nat (num_rows d))%Z -> (0 <= c <= e)%Z -> (e <= b - a)%Z ->
  exists v h1 w h2 w' h', slice_view d a b h = Ok (v, h1) /\ slice_view v c e h1 = Ok (w, h2) /\
    slice_view d (a + c) (a + e) h = Ok (w', h') /\ abs h' w' = abs h2 w.
Proof. exact C114_slice_slice_main. Qed.
Print Assumptions C114_slice_slice.
Theorem C114_columns_rows : forall (rt : GoRT) (h : heap) (d : dframe) (cols : list string) (l : list Z),
  wf h d -> Forall (fun i => (0 <= i < Z.of_nat (num_rows d))%Z) l ->
  exists v h1 w h2 v' h1' w' h2',
    column_view d cols h = Ok (v, h1) /\ index_view v l h1 = Ok (w, h2) /\
    index_view d l h = Ok (v', h1') /\ column_view v' cols h1' = Ok (w', h2') /\ abs h2' w' = abs h2 w.
Proof. exact C114_columns_rows_main. Qed.
Print Assumptions C114_columns_rows.
Theorem C114_columns_columns : forall (rt : GoRT) (h : heap) (d : dframe) (c1 c2 : list string),
  wf h d -> c1 <> [] -> (exists c, c ∈ c2 /\ c ∈ c1) ->
  exists v h1 w h2 w' h', column_view d c1 h = Ok (v, h1) /\ column_view v c2 h1 = Ok (w, h2) /\
    column_view d (filter (fun c => c ∈ c1) c2) h = Ok (w', h') /\ abs h' w' = abs h2 w.
Proof. exact C114_columns_columns_main. Qed.
Print Assumptions C114_columns_columns.
Local Existing Instance ex_rt.
Example C113_case : wf ex_vh ex_v /\ split_view ex_v 2 ex_vh = Ok (wj_split.1, wj_split.2) /\ length wj_split.1 = 2 /\
  show KInt "a" ex_vh ex_v = Some [VInt 9; VInt 5; VInt 9] /\ show KInt "a" wj.2 wj.1 = Some [VInt 9; VInt 5; VInt 9] /\
  show KObj "s" wj.2 wj.1 = show KObj "s" ex_vh ex_v.
Proof. exact C113_check_main. Qed.
Example C114_case : wf ex_h ex_d /\ num_rows ex_d = 4 /\
  index_view ex_d [2; 0; 2]%Z ex_h = Ok (ex_v, ex_vh) /\ index_view ex_v [1; 2]%Z ex_vh = Ok (wj_index.1, wj_index.2) /\
  show KInt "a" wj_index.2 wj_index.1 = Some [VInt 5; VInt 9] /\
  show KInt "a" wj_slice2.2 wj_slice2.1 = Some [VInt 9; VInt 1] /\
  show KObj "s" wj_crows.2 wj_crows.1 = Some [VObj (OStr "x"); VObj (OStr "x"); VObj (OStr "x")] /\
  show KInt "a" wj_crows.2 wj_crows.1 = None.
Proof. exact C114_check_main. Qed.
