(** CheckConsistency: the property theorem C83. *)
From Verif Require Import M_Check P_ConsMain P_Check.

(** C83 for every iteration order. *)
Theorem C83_check : forall (ord : list (key * slice)) (r : raw) (h : heap), let m := mp h (r_maps r) in
  ord ≡ₚ map_to_list m ->
  check_consistency ord r h = true <->
  (exists n, forall k s, m !! k = Some s -> s_len s = n) /\
  (forall c, c ∈ ostr h (r_strs r) -> is_Some (m !! (KObj, c))) /\
  (forall c s, m !! (KObj, c) = Some s -> c ∉ ostr h (r_strs r) -> forall x, VObj (OStr x) ∉ sl_vals h s).
Proof. exact C83_check_main. Qed.
Print Assumptions C83_check.
Theorem C83_wf : forall (ord : list (key * slice)) (h : heap) (d : dframe), wf h d -> ord ≡ₚ map_to_list (mp h (r_maps (d_raw d))) ->
  (forall c, c ∈ t_strs (abs h d) -> is_Some (t_cols (abs h d) !! (KObj, c))) ->
  (forall c s, mp h (r_maps (d_raw d)) !! (KObj, c) = Some s -> c ∉ t_strs (abs h d) -> forall x, VObj (OStr x) ∉ sl_vals h s) ->
  check_consistency ord (d_raw d) h = true.
Proof. exact C83_wf_main. Qed.
Print Assumptions C83_wf.
Local Existing Instance ex_rt.
Example C83_case : wf ex_h ex_d /\ check_consistency (map_to_list (mp ex_h (r_maps (d_raw ex_d)))) (d_raw ex_d) ex_h = true /\
  check_consistency (map_to_list (mp bad_strs (r_maps (d_raw ex_d)))) (d_raw ex_d) bad_strs = false.
Proof. exact C83_case_main. Qed.
