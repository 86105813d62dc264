(** C68: the basic_histogram example. *)
From Verif Require Import Base BaseFacts Floats GoVal MetricType ByteWriter Hash Units Indom Metrics Registry Prog
  Client Mmvdump View RegInv World OpRuns RegFacts WorldInv Sync ValueFacts MetricFacts OpFacts FloatFacts GaugeFacts VectorFacts SyncView Life Parse Example Samples SamplesFacts SamplesHist PropsSamples.
Local Open Scope Z_scope.

(** The statistics and where they are shown. *)
Definition stat_names : list gostring := [str "min"; str "max"; str "mean"; str "variance"; str "standard_deviation"].
(** The values of the file: [f] says what is shown for each instance. Type 5 is a double, semantics 3 instant. *)
Definition hist_view (f : gostring -> Z) : view :=
  let m := metric_rec 64 (str "hist") 5 3 count_unit (Some (str "histogram")) (Some (str "a sample histogram")) None in
  mkView [dom_rec (str "histogram") 5 None None] (map (inst_rec 64 (str "histogram")) stat_names) [m]
    (map (fun i => mkVV m (Some (inst_rec 64 (str "histogram") i)) (VF64 (f i))) stat_names).
(** The same double, or two zeros, or two NaNs. *)
Definition same_double (x y : Z) : Prop := x = y \/ f64_eqb x y = true \/ (f64_val x = S754_nan /\ f64_val y = S754_nan).
(** [f] shows the statistics [l] of the library, zeros if there are none yet. *)
Definition shows_stats (l : option hstats) (f : gostring -> Z) : Prop :=
  match l with
  | Some s => same_double (f64_of_Z (hs_min s)) (f (str "min")) /\ same_double (f64_of_Z (hs_max s)) (f (str "max")) /\ same_double (hs_mean s) (f (str "mean")) /\
      same_double (f64_mul (hs_stddev s) (hs_stddev s)) (f (str "variance")) /\ same_double (hs_stddev s) (f (str "standard_deviation"))
  | None => forall i, i ∈ stat_names -> f i = 0
  end.
(** Min and Max are int64, Mean and StdDev float64. *)
Definition possible_stats (s : hstats) : Prop := in_signed 64 (hs_min s) /\ in_signed 64 (hs_max s) /\ in_unsigned 64 (hs_mean s) /\ in_unsigned 64 (hs_stddev s).
Definition shown (loc : gostring) (gen pid : Z) (l : option hstats) (w : world) : Prop :=
  exists f, file_shows w loc (str "histogram_test") 1 5 gen pid (hist_view f) /\ shows_stats l f.

Lemma hist_shown loc gen pid l w : hist_at loc gen pid l w -> shown loc gen pid l w.
Proof.
  intros H. destruct (hist_shows _ _ _ _ _ H) as (f & Hf & F). exists f. split.
  - eapply SamplesView.file_shows_veq; [|exact F]. clear. unfold hist_view.
    assert (want_metric false (m_desc hi_m) (Some histogramIndom) = metric_rec 64 (str "hist") 5 3 count_unit (Some (str "histogram")) (Some (str "a sample histogram")) None) as -> by (vm_compute; reflexivity).
    assert (want_indom histogramIndom = dom_rec (str "histogram") 5 None None) as -> by (vm_compute; reflexivity).
    assert (forall i, want_inst false histogramIndom (i, inst_id i) = inst_rec 64 (str "histogram") i) as E.
    { intros i. unfold want_inst, inst_rec. cbn [fst snd]. assert (id_id histogramIndom = hash (str "histogram") 22) as -> by (vm_compute; reflexivity). reflexivity. }
    change histogramInstances with stat_names. split_and!; cbn [v_indoms v_insts v_metrics v_values]; [reflexivity|by rewrite (map_ext _ _ E)|reflexivity|].
    erewrite map_ext; [reflexivity|]. intros i. cbn beta. by rewrite E.
  - destruct l as [s|]; cbn [shows_stats hist_vals] in *.
    + assert (forall i z, stat_of s i = Some z -> same_double z (f i)) as K.
      { intros i z Hz. destruct (Hf i z Hz) as (x & [= <-] & Hs). destruct Hs as [->|[Hs|Hs]]; [by left|right; by left|right; by right]. }
      split_and!; apply K; reflexivity.
    + intros i Hi. specialize (Hf i Hi). cbn in Hf. congruence.
Qed.

(** Whatever the library makes of the recorded values, after each of them the file shows the library's statistics, in whatever order the domain is visited;
    stopping the client then removes the file if asked to and leaves it alone otherwise. *)
Theorem C68_shows loc gen pid ord ss : ord ≡ₚ stat_names -> Forall possible_stats ss ->
  surely w_init (basic_histogram loc gen pid ord (map Some ss)) (shown loc gen pid (last ss)) /\
  forall erase, surely w_init (basic_histogram loc gen pid ord (map Some ss) ++ [must_stop erase]) (fun w => if erase then w_paths w !! loc = None else shown loc gen pid (last ss) w).
Proof.
  intros P F. pose proof (hist_runs loc gen pid ord ss P F) as H. split; [eapply surely_mono; [exact H|intros w; apply hist_shown]|].
  intros erase. eapply surely_app; [exact H|]. intros w A. destruct (hist_shown _ _ _ _ _ A) as (f & (ino & buf & d & K1 & K2 & K3 & K4 & K5) & S0). destruct A as [RU _].
  eapply surely_mono; [exact (s_stop _ _ _ _ _ _ erase RU)|]. intros w' (_ & _ & Hp & Hi & _). destruct erase; [exact Hp|].
  exists f. split; [|exact S0]. exists ino, buf, d. rewrite Hp, Hi. auto.
Qed.
(* the values 3 and 5: mean 4, standard deviation 1 *)
Definition three_five : hstats := mkStats 3 5 0x4010000000000000 0x3FF0000000000000.
Example C68_shows_ex : possible_stats three_five /\ forall f, shows_stats (Some three_five) f ->
  f64_eqb (f (str "min")) (f64_of_Z 3) = true /\ f64_eqb (f (str "variance")) (f64_of_Z 1) = true.
Proof.
  split; [vm_compute; intuition discriminate|]. assert (forall x y, f64_eqb x x = true -> same_double x y -> f64_eqb y x = true) as K.
  { intros x y Hx [->|[V|[V _]]]; [exact Hx|unfold f64_eqb in *; by rewrite SFeqb_sym|unfold f64_eqb in Hx; by rewrite V in Hx]. }
  intros f (M & _ & _ & V & _). split; apply K; try exact M; try exact V; vm_compute; reflexivity.
Qed.

(** The library is asked for a histogram of the values 0 to 100 with 5 significant figures, so every value rand.Int63n(100) can return is in its range. *)
Theorem C68_range ord v : ord ≡ₚ stat_names -> 0 <= v < 100 -> exists lo hi m, NewPCPHistogram (str "hist") 0 100 5 OneUnit [str "a sample histogram"] 0 histogramIndom ord = Some ((lo, hi, 5), m) /\ lo <= v <= hi.
Proof. intros P Hv. exists 0, 100, hi_m. split; [|lia]. rewrite (hi_new_perm ord P). vm_compute. reflexivity. Qed.
Example C68_range_ex : stat_names ≡ₚ stat_names /\ 0 <= 99 < 100.
Proof. split; [reflexivity|lia]. Qed.

(** If the library refuses a value MustRecord panics, and the file still shows the statistics from before. *)
Theorem C68_refused loc gen pid ord ss : ord ≡ₚ stat_names -> Forall possible_stats ss -> let prog := basic_histogram loc gen pid ord (map Some ss ++ [None]) in
  (exists w, exec w_init prog false w) /\ forall b w, exec w_init prog b w -> b = false /\ shown loc gen pid (last ss) w.
Proof.
  intros P F prog. pose proof (hist_runs loc gen pid ord ss P F) as [[w1 E1] H1]. assert (prog = basic_histogram loc gen pid ord (map Some ss) ++ [hist_record_stmt None]) as ->.
  { unfold prog, basic_histogram. by rewrite map_app, app_assoc. }
  split.
  - destruct (H1 _ _ E1) as [_ A]. destruct (proj1 (hist_refused _ _ _ _ _ A)) as [w2 E2]. exists w2. by eapply exec_app_ok.
  - intros b w E. apply exec_app in E as [(w2 & A & B)|[-> A]].
    + destruct (H1 _ _ A) as [_ A']. destruct (proj2 (hist_refused _ _ _ _ _ A') _ _ B) as [-> ->]. split; [done|]. by apply hist_shown.
    + destruct (H1 _ _ A) as [E _]. discriminate E.
Qed.
Example C68_refused_ex : exists w, exec w_init (basic_histogram (str "/tmp/h") 7 99 stat_names [Some three_five; None]) false w.
Proof. apply (C68_refused (str "/tmp/h") 7 99 stat_names [three_five] (Permutation_refl _)). apply Forall_singleton. vm_compute. intuition discriminate. Qed.

Print Assumptions C68_shows.
Print Assumptions C68_range.
Print Assumptions C68_refused.
