(** C59: registering while Start runs.
    Specification vocabulary: StartGrow.v ([start_race w cid gen pid tr1 w1 tr2 o w']: Start of client
    [cid] while other goroutines make the registering calls [tr1] after the file's length has been
    computed and [tr2] after the file has been written), SyncView.v ([complete_file], [file_of]),
    DumpSched.v ([dump_run]), StartGrowFacts.v ([updates]). *)
From Verif Require Import Base BaseFacts Floats GoVal MetricType ByteWriter Hash Units Indom Metrics Registry Prog
  Client Mmvdump Ileave ProgProofs Exec Events StartEvents BufFacts Tiling StartGood StartLayout StartFinal StartDone
  View Sections StartView RegInv Update World OpRuns RegFacts WorldInv Sync StartLive FloatFacts ValueFacts MetricFacts SyncLive SyncView
  Crash Life RegSteps DumpSched DumpSeq DumpTrunc Example Witness StartGrow StartGrowFacts StartGrowWit.

(** ** What Start leaves behind *)
(** Without registrations in between this is the Start of the history model. *)
Theorem C59_quiet w cid gen pid o w' : start_race w cid gen pid [] w [] o w' <-> wstep w (CStart cid gen pid true) o w'.
Proof. apply race_quiet. Qed.

(** If this client's registry has not changed when the writing starts, Start does not panic, and the file shows
    exactly what was registered then, now and after any updates of any metrics. Missing: metrics registered
    while Start was writing are not in the file (C59_unpublished_refuted). *)
Theorem C59_kept_partial w cid c r gen pid tr1 w1 tr2 o w' : reachable w -> w_clients w !! cid = Some c -> w_regs w !! cl_reg c = Some r -> w_regs w1 !! cl_reg c = Some r ->
  startable (w_heap w1) r -> start_race w cid gen pid tr1 w1 tr2 o w' ->
  o = ROk /\ forall tr w'', phist (fun _ cl => updates r cl) w' tr w'' ->
    exists b, file_of w'' c = Some b /\ zlen b = Length r /\ complete_file (w_heap w'') c r gen pid b.
Proof.
  intros R Hc Hr Hr1 Hs H. pose proof (reachable_ok _ R) as W. assert (o = ROk) as ->.
  { inversion H as [|c' r' r1' ino s Hd Hc' Hr' B1 Hr1' Hino Rn _]; subst; [reflexivity|]. exfalso.
    assert (c' = c) as -> by congruence. assert (r' = r) as -> by congruence. assert (r1' = r) as -> by congruence.
    destruct (beside_ok _ _ _ W B1) as (W1 & C1 & _). exact (start_not_panics w1 cid c r gen pid s W1 ltac:(congruence) Hr1 Hs Rn). }
  split; [reflexivity|]. intros tr w''. by eapply race_kept.
Qed.

(** If something was registered between the computation of the length and the writing, a Start that returns nil
    leaves the beginning of a complete file, cut off at the old length; the reader refuses it in every interleaving. *)
Theorem C59_cut_off w cid c r r1 gen pid tr1 w1 tr2 w' : reachable w -> w_clients w !! cid = Some c -> w_regs w !! cl_reg c = Some r -> w_regs w1 !! cl_reg c = Some r1 ->
  startable (w_heap w1) r1 -> r1 <> r -> start_race w cid gen pid tr1 w1 tr2 ROk w' ->
  exists b rest, file_of w' c = Some b /\ zlen b = Length r /\ complete_file (w_heap w1) c r1 gen pid (b ++ rest) /\ rest <> [] /\ forall o, dump_run b o -> o = DErr.
Proof.
  intros R Hc Hr Hr1 Hs Hne H. pose proof (reachable_ok _ R) as W.
  destruct (race_file w cid gen pid tr1 w1 tr2 w' c r r1 W Hc Hr Hr1 H Hs) as (b & rest & A1 & A2 & A3 & A4). exists b, rest.
  destruct (race_parts w cid gen pid tr1 w1 tr2 w' c r r1 W Hc Hr Hr1 H) as (wr & ino & s & w3 & r3 & _ & _ & B1 & [G|G] & _); [contradiction|].
  split_and!; auto.
  - intros ->. rewrite app_nil_r in A3. lia.
  - intros o. apply (race_refused w cid gen pid tr1 w1 tr2 w' c r r1 W Hc Hr Hr1 H b o); auto. destruct B1 as [B1 _]. by eapply hist_reachable.
Qed.

(** Metrics registered while Start was writing stay registered, but their updates never reach the file. *)
Theorem C59_late w cid c r r1 gen pid tr1 w1 tr2 w' : reachable w -> w_clients w !! cid = Some c -> w_regs w !! cl_reg c = Some r -> w_regs w1 !! cl_reg c = Some r1 ->
  start_race w cid gen pid tr1 w1 tr2 ROk w' ->
  (exists r', w_regs w' !! cl_reg c = Some r' /\ r_mapped r' = true /\ r_metrics r1 ⊆ r_metrics r') /\
  forall mp op mst o w'', ~ registered r1 mp -> wstep w' (CUpdate mp op mst) o w'' -> file_of w'' c = file_of w' c.
Proof.
  intros R Hc Hr Hr1 H. pose proof (reachable_ok _ R) as W. split; [by eapply race_registered|]. intros mp op mst o w''. by eapply race_late.
Qed.

(** ** Counterexamples *)
(** Start returns nil, but the file cannot be read. *)
Theorem C59_unreadable_refuted : exists w w1 w' b, reachable w /\ start_race w 0 ex_gen ex_pid [(w, CAddMetric 0 2, ROk)] w1 [] ROk w' /\
  startable (w_heap w) (gw_reg w) /\ startable (w_heap w1) (gw_reg w1) /\
  file_of w' wit_sc = Some b /\ zlen b = 480 /\ Length (gw_reg w1) = 616 /\ forall o, dump_run b o -> o = DErr.
Proof.
  pose proof (gw_first true) as B. destruct (gw_startable true) as [S0 S1]. destruct (gw_regs true) as [R0 R1]. cbv zeta iota in *.
  set (s := (gw_run (Length (gw_reg (gw0 gw_desc))) (gw1 gw_desc)).1). set (w2 := set_regs (started (gw1 gw_desc) 0 wit_sc (gw_reg (gw1 gw_desc)) 0 0 s) (w_regs (gw1 gw_desc))).
  assert (start_race (gw0 gw_desc) 0 ex_gen ex_pid [(gw0 gw_desc, CAddMetric 0 2, ROk)] (gw1 gw_desc) [] ROk (set_regs w2 (<[0%nat := set_mapped (gw_reg (gw1 gw_desc)) true]> (w_regs w2)))) as H.
  { apply (sr_ok (gw0 gw_desc) 0 ex_gen ex_pid _ (gw1 gw_desc) [] wit_sc (gw_reg (gw0 gw_desc)) (gw_reg (gw1 gw_desc)) 0%nat 0%nat s w2 (gw_reg (gw1 gw_desc)));
      [reflexivity|reflexivity|exact R0|exact B|exact R1|reflexivity|reflexivity| |apply beside_nil; reflexivity|exact R1].
    apply (gw_sized true true). vm_cast_no_check (eq_refl true). }
  assert (gw_reg (gw1 gw_desc) <> gw_reg (gw0 gw_desc)) as N. { intros E. apply (f_equal MetricCount) in E. revert E. vm_compute. discriminate. }
  destruct (C59_cut_off (gw0 gw_desc) 0 wit_sc (gw_reg (gw0 gw_desc)) (gw_reg (gw1 gw_desc)) ex_gen ex_pid _ _ _ _ (gw0_reachable gw_desc (or_intror eq_refl)) eq_refl R0 R1 S1 N H) as (b & rest & A1 & A2 & A3 & A4 & A5).
  eexists _, _, _, b. split; [exact (gw0_reachable gw_desc (or_intror eq_refl))|]. split; [exact H|]. split; [exact S0|]. split; [exact S1|]. split; [exact A1|]. split; [rewrite A2; vm_compute; reflexivity|]. split; [vm_compute; reflexivity|exact A5].
Qed.

(** Start panics, though before and after the registration it would have succeeded. *)
Theorem C59_panics_refuted : exists w w1 w', reachable w /\ start_race w 0 ex_gen ex_pid [(w, CAddMetric 0 2, ROk)] w1 [] RPanic w' /\
  startable (w_heap w) (gw_reg w) /\ startable (w_heap w1) (gw_reg w1).
Proof.
  pose proof (gw_first false) as B. destruct (gw_startable false) as [S0 S1]. destruct (gw_regs false) as [R0 R1]. cbv zeta iota in *.
  eexists (gw0 []), (gw1 []), _. split; [exact (gw0_reachable [] (or_introl eq_refl))|]. split; [|split; [exact S0|exact S1]].
  apply (sr_panic (gw0 []) 0 ex_gen ex_pid _ (gw1 []) [] wit_sc (gw_reg (gw0 [])) (gw_reg (gw1 [])) 0%nat (gw_run (Length (gw_reg (gw0 []))) (gw1 [])).1);
    [reflexivity|reflexivity|exact R0|exact B|exact R1|reflexivity| |reflexivity].
  assert (w_ok (gw1 [])) as W by exact (reachable_ok _ (gw1_reachable [] (or_introl eq_refl))).
  exists (std_plan (w_heap (gw1 [])) (gw_reg (gw1 []))), (gw_run (Length (gw_reg (gw0 []))) (gw1 [])).2. split; [apply std_plan_ok; [apply W|exact (wo_regs _ W _ _ R1)]|].
  split; [unfold gw_run; rewrite <- surjective_pairing; apply run_steps|]. vm_cast_no_check (eq_refl true).
Qed.

(** Start and AddMetric return nil, two metrics are registered, and the file shows one. *)
Theorem C59_unpublished_refuted : exists w w2 w' r' b d, reachable w /\ start_race w 0 ex_gen ex_pid [] w [(w2, CAddMetric 0 2, ROk)] ROk w' /\
  startable (w_heap w) (gw_reg w) /\ w_regs w' !! 0%nat = Some r' /\ r_mapped r' = true /\ MetricCount r' = 2 /\
  file_of w' wit_sc = Some b /\ Dump b = DOk d /\ length (recs (du_metrics d)) = 1%nat.
Proof.
  destruct gw_late as (w2 & w' & H & R & F). destruct gw_one as (d & D1 & D2). destruct (gw_startable true) as [S0 _].
  exists (gw0 gw_desc), w2, w', (set_mapped (gw_reg (gw1 gw_desc)) true), (g_buf gw_gst), d.
  split; [exact (gw0_reachable gw_desc (or_intror eq_refl))|]. split; [exact H|]. split; [exact S0|]. split; [exact R|]. split; [reflexivity|].
  split; [vm_compute; reflexivity|]. split; [exact F|]. split; [exact D1|exact D2].
Qed.

Example C59_ex : reachable (gw0 gw_desc) /\ w_regs (gw0 gw_desc) !! cl_reg wit_sc = Some (gw_reg (gw0 gw_desc)) /\ startable (w_heap (gw0 gw_desc)) (gw_reg (gw0 gw_desc)) /\
  MetricCount (gw_reg (gw0 gw_desc)) = 1 /\ ~ registered (gw_reg (gw0 gw_desc)) 2 /\ exists w2 w', start_race (gw0 gw_desc) 0 ex_gen ex_pid [] (gw0 gw_desc) [(w2, CAddMetric 0 2, ROk)] ROk w' /\
  phist (fun _ cl => updates (gw_reg (gw0 gw_desc)) cl) w' [] w'.
Proof.
  destruct (gw_startable true) as [S0 _]. destruct (gw_regs true) as [R0 _]. split; [exact (gw0_reachable gw_desc (or_intror eq_refl))|]. split; [exact R0|]. split; [exact S0|].
  split; [vm_compute; reflexivity|]. split; [exact gw_not_registered|]. destruct gw_late as (w2 & w' & H & _). exists w2, w'. split; [exact H|constructor].
Qed.
Print Assumptions C59_quiet.
Print Assumptions C59_kept_partial.
Print Assumptions C59_cut_off.
Print Assumptions C59_late.
Print Assumptions C59_unreadable_refuted.
Print Assumptions C59_panics_refuted.
Print Assumptions C59_unpublished_refuted.
