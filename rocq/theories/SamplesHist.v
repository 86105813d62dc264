(** The example program of /repo/examples/basic_histogram. *)
From Verif Require Import Base BaseFacts Floats GoVal MetricType ByteWriter Hash Units Indom Metrics Registry Prog
  Client Mmvdump View RegInv World OpRuns RegFacts WorldInv Sync FloatFacts ValueFacts MetricFacts OpFacts GaugeFacts VectorFacts HistFacts
  SyncView Life Parse Example Samples SamplesFacts SamplesRun SamplesRt.
Local Open Scope Z_scope.

(** /repo/examples/basic_histogram/main.go:12-30; the histogram is the metric at 1, [ord] the order in which NewPCPHistogram visits the domain. *)
Definition hist_setup (loc : gostring) (gen pid : Z) (ord : list gostring) : list gstmt :=
  new_client (str "histogram_test") loc ++
  [GNew 1 (snd <$> NewPCPHistogram (str "hist") 0 100 5 OneUnit [str "a sample histogram"] 0 histogramIndom ord); register 1; must_start gen pid].
(** The loop, /repo/examples/basic_histogram/main.go:32-39: [res] is what the library did with each value recorded so far, [None] an error,
    otherwise its statistics after that value. What is printed and the pauses are left out. *)
Definition hist_record_stmt (res : option hstats) : gstmt := do_call (CUpdate 1 (OHRecord res) true).
Definition basic_histogram (loc : gostring) (gen pid : Z) (ord : list gostring) (res : list (option hstats)) : list gstmt :=
  hist_setup loc gen pid ord ++ map hist_record_stmt res.

Lemma new_histogram_perm name low high sig u desc ip d ord ord' pm : NewPCPHistogram name low high sig u desc ip d ord = Some pm -> ord' ≡ₚ ord ->
  NewPCPHistogram name low high sig u desc ip d ord' = Some pm.
Proof.
  unfold NewPCPHistogram, new_inst_body. intros E P. destruct (high <? low); [discriminate|]. destruct (new_desc _ _ _ _ _) as [D|]; [|discriminate]. destruct (_ =? _); [|discriminate].
  destruct (init_vals _ _ ord _) as [c|] eqn:Ei; [|discriminate]. by rewrite (init_vals_perm _ _ _ _ _ _ Ei P).
Qed.
Definition hi_pm := get ((0, 0, 0), no_metric) (NewPCPHistogram (str "hist") 0 100 5 OneUnit [str "a sample histogram"] 0 histogramIndom (map_to_list (id_insts histogramIndom)).*1).
Definition hi_m : metric := hi_pm.2.
Definition hi_r : registry := (add_metric (mkHeap (h_indoms (w_heap w_init)) (<[1%nat := hi_m]> ∅)) new_registry 1 hi_m).2.
Lemma hi_indom : new_indom (str "histogram") histogramInstances [] = Some histogramIndom.
Proof.
  assert (forall d d', id_id d = id_id d' -> id_name d = id_name d' -> id_insts d = id_insts d' -> id_short d = id_short d' -> id_long d = id_long d' -> d = d') as H by (intros [] []; cbn; congruence).
  rewrite (get_some no_indom (new_indom (str "histogram") histogramInstances [])) by (vm_compute; reflexivity). f_equal.
  apply H; [vm_compute; reflexivity|vm_compute; reflexivity|apply (bool_decide_eq_true_1 _); vm_compute; reflexivity|vm_compute; reflexivity|vm_compute; reflexivity].
Qed.
Lemma hi_nodup : NoDup histogramInstances.
Proof. apply (bool_decide_eq_true_1 _). vm_compute. reflexivity. Qed.
Lemma hi_keys : (map_to_list (id_insts histogramIndom)).*1 ≡ₚ histogramInstances.
Proof. rewrite (dom_list _ _ _ _ hi_indom hi_nodup). vm_compute. reflexivity. Qed.
Lemma hi_new : NewPCPHistogram (str "hist") 0 100 5 OneUnit [str "a sample histogram"] 0 histogramIndom (map_to_list (id_insts histogramIndom)).*1 = Some hi_pm.
Proof. apply (get_some ((0, 0, 0), no_metric)). vm_compute. reflexivity. Qed.
Lemma hi_new_perm ord : ord ≡ₚ histogramInstances -> NewPCPHistogram (str "hist") 0 100 5 OneUnit [str "a sample histogram"] 0 histogramIndom ord = Some hi_pm.
Proof. intros P. eapply new_histogram_perm; [exact hi_new|]. by rewrite hi_keys. Qed.

Definition stats_ok (s : hstats) : Prop := in_signed 64 (hs_min s) /\ in_signed 64 (hs_max s) /\ in_unsigned 64 (hs_mean s) /\ in_unsigned 64 (hs_stddev s).
(** The statistics [l] are shown, 0 before the first recording. *)
Definition hist_vals (l : option hstats) (g : option gostring -> option goval) : Prop :=
  match l with
  | Some s => forall i z, stat_of s i = Some z -> exists x, g (Some i) = Some (VF64 x) /\ f64_same z x
  | None => forall i, i ∈ histogramInstances -> g (Some i) = Some (VF64 0)
  end.
Definition hist_at (loc : gostring) (gen pid : Z) (l : option hstats) (w : world) : Prop :=
  running w loc (hash (str "histogram_test") PCPClusterIDBitLength) hi_r gen pid /\ h_indoms (w_heap w) !! 0%nat = Some histogramIndom /\
  exists g, is_m w 1 (m_desc hi_m) MHistogram (Some 0%nat) g /\ hist_vals l g.

Lemma hi_reg : registered hi_r 1.
Proof. apply reg1. vm_compute. reflexivity. Qed.
Lemma hi_zero i : i ∈ histogramInstances -> val_at hi_m (Some i) = Some (VF64 0).
Proof.
  intros H. apply (all_of (zero_at (VF64 0) hi_m) histogramInstances ltac:(vm_compute; reflexivity)) in H. unfold zero_at in H. destruct (val_at _ _); [|discriminate]. apply bool_decide_eq_true_1 in H. by subst.
Qed.

Lemma hist_starts loc gen pid ord : ord ≡ₚ histogramInstances -> surely w_init (hist_setup loc gen pid ord) (hist_at loc gen pid None).
Proof.
  intros P. unfold hist_setup. rewrite (hi_new_perm _ P). cbn [fmap option_fmap option_map]. change (hi_pm.2) with hi_m.
  eapply s_client; [exact okw_init|reflexivity|reflexivity|]. intros O1.
  eapply (s_new _ 1 hi_m _ _ 100); [exact O1|reflexivity|reflexivity| |].
  { eapply (cr_histogram _ _ (str "hist") 0 100 5 OneUnit [str "a sample histogram"] histogramIndom _ hi_pm.1 hi_m); [cbv; intuition discriminate|reflexivity|reflexivity|]. rewrite hi_new. unfold hi_m. by destruct hi_pm. }
  intros O2. eapply s_register with (r := new_registry) (m := hi_m) (r' := hi_r); [exact O2|reflexivity|reflexivity|vm_compute; reflexivity|]. intros O3.
  eapply s_start with (r := hi_r); [exact O3|reflexivity|reflexivity|apply startableb_ok; vm_compute; reflexivity|]. clear O1 O2 O3.
  intros w1 RU Hi Hm. apply surely_nil. split; [exact RU|]. rewrite Hi. split; [reflexivity|]. exists (val_at hi_m). split; [exact (Hm 1%nat hi_m eq_refl)|]. exact hi_zero.
Qed.
Lemma hist_step loc gen pid l s w ss (Q : world -> Prop) : hist_at loc gen pid l w -> stats_ok s -> (forall w1, hist_at loc gen pid (Some s) w1 -> surely w1 ss Q) ->
  surely w (hist_record_stmt (Some s) :: ss) Q.
Proof.
  intros (RU & Hd & g & (m & Hm & ED & Hk & Hi & Hv) & _) (B1 & B2 & B3 & B4) H. destruct (ru_live _ _ _ _ _ _ _ RU hi_reg _ Hm) as [HL Hok]. pose proof RU as [[R Hdd] _ _ _].
  assert (vec_like (w_heap w) 0 DoubleType m) as V by (split; [exact Hok|]; split; [exact Hi|]; rewrite ED; reflexivity).
  destruct (hist_update_live (w_heap w) histogramIndom Hd (w_files w) m s V HL B3 B4) as (fs' & m' & E).
  { intros i. apply (all_of (has_instance histogramIndom)). vm_compute. reflexivity. }
  assert (exists cells, m_body m = BInst 0 cells) as [cells Hb] by (unfold m_indom in Hi; destruct (m_body m); [discriminate|injection Hi as ->; eauto]).
  assert (run_op (w_files w) (w_heap w) m (OHRecord (Some s)) = Some (ROk, fs', m')) as Hrun by (unfold run_op, with_dom; rewrite Hk, Hb, Hd; cbn; f_equal; exact E).
  assert (op_args (w_heap w) m (OHRecord (Some s))) as Ha by (cbn; auto). destruct (frame_kind _ _ _ _ true _ _ _ Hok Ha Hrun) as [E1 E2].
  eapply s_update; [exact RU|reflexivity|exact Hm|exact Ha|exact I|exact Hrun|].
  intros w1 RU1 Hin1 Hms. apply H. split; [exact RU1|]. rewrite Hin1. split; [exact Hd|]. exists (val_at m'). split.
  - exists m'. rewrite Hms, lookup_insert. split_and!; auto; try congruence.
    assert (wstep w (CUpdate 1 (OHRecord (Some s)) false) ROk (mkWorld (mkHeap (h_indoms (w_heap w)) (<[1%nat := m']> (h_metrics (w_heap w)))) (w_regs w) (w_clients w) fs' (w_paths w) (w_offs w) false)) as St.
    { exact (ws_update w 1 (OHRecord (Some s)) false m ROk fs' m' Hdd Hm Ha Hrun). }
    rewrite <- Hk. eapply kind_step; [apply reachable_ok, R|exact St|exact Hm|cbn; apply lookup_insert|]. intros a t E0. congruence.
  - exact (hist_update_ok (w_heap w) histogramIndom Hd (w_files w) m s fs' m' V B3 B4 E).
Qed.
Lemma hist_all loc gen pid ss : forall w l, Forall stats_ok ss -> hist_at loc gen pid l w ->
  surely w (map hist_record_stmt (map Some ss)) (hist_at loc gen pid (match last ss with Some s => Some s | None => l end)).
Proof.
  induction ss as [|s ss IH]; intros w l F A; [by apply surely_nil|]. apply Forall_cons in F as [OK F]. cbn [map].
  eapply hist_step; [exact A|exact OK|]. intros w1 A1. specialize (IH w1 (Some s) F A1). eapply surely_mono; [exact IH|]. intros w2. rewrite last_cons. by destruct (last ss).
Qed.
Lemma hist_runs loc gen pid ord ss : ord ≡ₚ histogramInstances -> Forall stats_ok ss ->
  surely w_init (basic_histogram loc gen pid ord (map Some ss)) (hist_at loc gen pid (last ss)).
Proof.
  intros P F. unfold basic_histogram. eapply surely_app; [by apply hist_starts|]. intros w A. eapply surely_mono; [exact (hist_all loc gen pid ss w None F A)|].
  intros w'. by destruct (last ss).
Qed.
(** A recording the library refuses. *)
Lemma hist_refused loc gen pid l w : hist_at loc gen pid l w -> (exists w', exec w [hist_record_stmt None] false w') /\
  forall b w', exec w [hist_record_stmt None] b w' -> b = false /\ w' = w.
Proof.
  intros (RU & Hd & g & (m & Hm & ED & Hk & Hi & Hv) & _). pose proof RU as [[R Hdd] _ _ _].
  assert (exists cells, m_body m = BInst 0 cells) as [cells Hb] by (unfold m_indom in Hi; destruct (m_body m); [discriminate|injection Hi as ->; eauto]).
  assert (run_op (w_files w) (w_heap w) m (OHRecord None) = Some (RErr, w_files w, m)) as Hrun by (unfold run_op, with_dom; rewrite Hk, Hb, Hd; reflexivity).
  assert (mkWorld (mkHeap (h_indoms (w_heap w)) (<[1%nat := m]> (h_metrics (w_heap w)))) (w_regs w) (w_clients w) (w_files w) (w_paths w) (w_offs w) false = w) as Ew.
  { rewrite insert_id by exact Hm. destruct w as [[? ?] ? ? ? ? ? dd]. cbn in *. by subst dd. }
  assert (wstep w (CUpdate 1 (OHRecord None) true) RPanic w) as S1.
  { rewrite <- Ew at 2. apply (ws_update w 1 (OHRecord None) true m RPanic (w_files w) m Hdd Hm I). by rewrite Hrun. }
  split; [exists w; eapply ex_call_err; [reflexivity|exact S1|discriminate]|].
  assert (forall o w', wstep w (CUpdate 1 (OHRecord None) true) o w' -> o = RPanic /\ w' = w) as K.
  { intros o w' S2. inversion S2 as [| | | | | | | | | | | | | | |w0 mp0 op0 mst0 m0 o0 fs0 m0' A1 A2 A3 A4]; subst. assert (m0 = m) as -> by congruence. rewrite Hrun in A4. injection A4 as <- <- <-. split; [done|]. exact Ew. }
  intros b w' E. inversion E as [| | | | |w0 f0 cl w1 ss0 b0 w0' Hf Hs He|w0 f0 cl o w1 ss0 Hf Hs Ho|w0 f0 ss0 Hf]; subst.
  - injection Hf as <-. destruct (K _ _ Hs) as [E0 _]. discriminate E0.
  - injection Hf as <-. destruct (K _ _ Hs) as [_ ->]. auto.
  - discriminate Hf.
Qed.
(** What the file shows. *)
Lemma hist_shows loc gen pid l w : hist_at loc gen pid l w -> exists f : gostring -> Z, hist_vals l (fun n : option gostring => (VF64 ∘ f) <$> n) /\
  let vm := want_metric false (m_desc hi_m) (Some histogramIndom) in
  file_shows w loc (str "histogram_test") 1 5 gen pid (mkView [want_indom histogramIndom] (map (fun i => want_inst false histogramIndom (i, inst_id i)) histogramInstances) [vm]
    (map (fun i => mkVV vm (Some (want_inst false histogramIndom (i, inst_id i))) (VF64 (f i))) histogramInstances)).
Proof.
  intros (RU & Hd & g & M & G). exists (fun i => match g (Some i) with Some (VF64 x) => x | _ => 0 end).
  assert (forall i, i ∈ histogramInstances -> exists x, g (Some i) = Some (VF64 x)) as GX.
  { intros i Hi. destruct l as [s|]; [|rewrite (G i Hi); eauto]. assert (exists z, stat_of s i = Some z) as [z Hz]; [|destruct (G i z Hz) as (x & -> & _); eauto].
    unfold stat_of. repeat (case_bool_decide; [eauto|]). exfalso. unfold histogramInstances in Hi. rewrite !elem_of_cons in Hi. rewrite elem_of_nil in Hi. tauto. }
  split.
  { destruct l as [s|]; cbn [hist_vals]; intros i.
    - intros z Hz. destruct (G i z Hz) as (x & E & Hs). exists x. cbn. by rewrite E.
    - intros Hi. cbn. by rewrite (G i Hi). }
  intros vm. assert (tocCount hi_r = 5) as Et by (vm_compute; reflexivity). assert (r_version2 hi_r = false) as Ev by (vm_compute; reflexivity).
  pose proof (running_shows w loc (str "histogram_test") hi_r gen pid) as RS. rewrite Et, Ev in RS. apply RS; [exact RU|]. clear RS.
  pose proof M as (m & Hm & _). destruct (values_inst _ _ _ _ _ _ _ false _ M Hd Hm) as [V1 W1].
  unfold want_view, reg_indoms, reg_metrics. assert ((map_to_list (r_metrics hi_r)).*2 = [1%nat]) as -> by (vm_compute; reflexivity). assert ((map_to_list (r_indoms hi_r)).*2 = [0%nat]) as -> by (vm_compute; reflexivity).
  rewrite Ev. cbn [omap list_omap]. rewrite Hm, Hd. cbn [map concat]. rewrite V1, W1, !app_nil_r. fold vm.
  split_and!; cbn [v_indoms v_insts v_metrics v_values]; [reflexivity| |reflexivity|].
  - rewrite (dom_list _ _ _ _ hi_indom hi_nodup), map_map. reflexivity.
  - apply (inst_vals_list vm false _ _ _ _ g (fun i => VF64 (match g (Some i) with Some (VF64 x) => x | _ => 0 end)) hi_indom hi_nodup). intros i Hi. destruct (GX i Hi) as [x ->]. reflexivity.
Qed.
