(** A counter is registered; while its client starts, another counter is registered. *)
From Verif Require Import Base BaseFacts Floats GoVal MetricType ByteWriter Hash Units Indom Metrics Registry Prog
  Client Mmvdump Ileave ProgProofs Exec Events StartEvents BufFacts Tiling StartGood StartLayout StartFinal StartDone
  View Sections StartView RegInv Update World OpRuns RegFacts WorldInv Sync StartLive FloatFacts ValueFacts MetricFacts SyncLive SyncView
  Crash Life RegSteps DumpSched DumpSeq DumpTrunc Example Witness StartGrow StartGrowFacts.

Definition gw_ctr (n : gostring) (desc : list gostring) : metric := get no_metric (NewPCPCounter 0 n desc).
Definition gw0 (desc : list gostring) : world :=
  reg_metric (put_metric (put_metric ex0 1 100 (gw_ctr (str "reads") desc) None) 2 100 (gw_ctr (str "writes") []) None) 0 1.
Definition gw1 (desc : list gostring) : world := reg_metric (gw0 desc) 0 2.
Definition gw_reg (w : world) : registry := get new_registry (w_regs w !! 0%nat).
Definition gw_desc : list gostring := [str "blocks read"].
Definition gw_run (n : Z) (w : world) : gst * prog :=
  run n wit_sched (sized_state n (gw_reg w) (w_offs w)) (start_prog (start_cfg wit_sc (gw_reg w) ex_gen ex_pid) (std_plan (w_heap w) (gw_reg w))).
Lemma gw0_reachable desc : desc = [] \/ desc = gw_desc -> reachable (gw0 desc).
Proof.
  intros H. unfold gw0. apply reg_reachable; [|reflexivity]. repeat (apply put_reachable; [|reflexivity|reflexivity|reflexivity|]); [exact ex0_reachable| |].
  - apply (cr_counter _ _ 0 (str "reads") desc); [unfold in_signed; lia|]. apply get_some. destruct H as [->| ->]; vm_compute; reflexivity.
  - apply (cr_counter _ _ 0 (str "writes") []); [unfold in_signed; lia|apply get_some; vm_compute; reflexivity].
Qed.
Lemma gw1_reachable desc : desc = [] \/ desc = gw_desc -> reachable (gw1 desc).
Proof. intros H. apply reg_reachable; [by apply gw0_reachable|]. destruct H as [->| ->]; vm_compute; reflexivity. Qed.
Lemma gw_regs (b : bool) : let desc := if b then gw_desc else [] in w_regs (gw0 desc) !! 0%nat = Some (gw_reg (gw0 desc)) /\ w_regs (gw1 desc) !! 0%nat = Some (gw_reg (gw1 desc)).
Proof. destruct b; split; apply get_some; vm_compute; reflexivity. Qed.
Lemma gw_startable (b : bool) : let desc := if b then gw_desc else [] in startable (w_heap (gw0 desc)) (gw_reg (gw0 desc)) /\ startable (w_heap (gw1 desc)) (gw_reg (gw1 desc)).
Proof. destruct b; split; apply startableb_ok; vm_compute; reflexivity. Qed.
Lemma gw_add (b : bool) w : let desc := if b then gw_desc else [] in w_heap w = w_heap (gw0 desc) -> w_regs w !! 0%nat = Some (gw_reg (gw0 desc)) -> w_dead w = false ->
  wstep w (CAddMetric 0 2) ROk (set_regs w (<[0%nat := gw_reg (gw1 desc)]> (w_regs w))).
Proof.
  intros desc Hh Hr Hd. apply (ws_add_metric w 0 2 (gw_reg (gw0 desc)) (gw_ctr (str "writes") []) ROk (gw_reg (gw1 desc))); [exact Hd|exact Hr|rewrite Hh; destruct b; vm_compute; reflexivity|].
  rewrite Hh. destruct b; vm_compute; reflexivity.
Qed.
Lemma gw_first (b : bool) : let desc := if b then gw_desc else [] in beside (gw0 desc) [(gw0 desc, CAddMetric 0 2, ROk)] (gw1 desc).
Proof.
  intros desc. split; [|repeat constructor]. eapply hist_cons; [|constructor].
  replace (gw1 desc) with (set_regs (gw0 desc) (<[0%nat := gw_reg (gw1 desc)]> (w_regs (gw0 desc)))) by (destruct b; vm_compute; reflexivity).
  apply (gw_add b); [reflexivity|apply (gw_regs b)|destruct b; vm_compute; reflexivity].
Qed.
Lemma gw_sized (b b' : bool) n : let desc := if b then gw_desc else [] in let w := if b' then gw1 desc else gw0 desc in
  run_done (gw_run n w) = true -> sized_run n (w_heap w) (w_offs w) (start_cfg wit_sc (gw_reg w) ex_gen ex_pid) (gw_run n w).1.
Proof.
  intros desc w E. destruct (done_split _ E) as [H1 H2].
  assert (w_ok w) as W by (apply reachable_ok; destruct b'; [apply gw1_reachable|apply gw0_reachable]; destruct b; auto).
  exists (std_plan (w_heap w) (gw_reg w)). split; [|split; [|exact H2]].
  - apply std_plan_ok; [apply W|]. eapply (wo_regs _ W 0). destruct b'; apply (gw_regs b).
  - rewrite <- H1. unfold gw_run. apply run_steps.
Qed.

(** A registration after the file has been written. *)
Lemma late_one w cid c r gen pid s mp m r2 : w_dead w = false -> w_clients w !! cid = Some c -> w_regs w !! cl_reg c = Some r ->
  f_writers (w_files w) !! 0%nat = None -> f_inodes (w_files w) !! 0%nat = None -> sized_run (Length r) (w_heap w) (w_offs w) (start_cfg c r gen pid) s ->
  h_metrics (set_upds 0 (g_upd s) (w_heap w)) !! mp = Some m -> add_metric (set_upds 0 (g_upd s) (w_heap w)) r mp m = (ROk, r2) ->
  exists w2 w', start_race w cid gen pid [] w [(w2, CAddMetric (cl_reg c) mp, ROk)] ROk w' /\ w_regs w' !! cl_reg c = Some (set_mapped r2 true) /\ file_of w' c = Some (g_buf s).
Proof.
  intros Hd Hc Hr Hw Hi Hs Hm Ha. set (w2 := set_regs (started w cid c r 0 0 s) (w_regs w)).
  assert (wstep w2 (CAddMetric (cl_reg c) mp) ROk (set_regs w2 (<[cl_reg c := r2]> (w_regs w2)))) as St by (by apply (ws_add_metric w2 (cl_reg c) mp r m ROk r2)).
  exists w2, (set_regs (set_regs w2 (<[cl_reg c := r2]> (w_regs w2))) (<[cl_reg c := set_mapped r2 true]> (w_regs (set_regs w2 (<[cl_reg c := r2]> (w_regs w2)))))). split.
  - eapply sr_ok; [exact Hd|exact Hc|exact Hr|by apply beside_nil|exact Hr|exact Hw|exact Hi|exact Hs| |apply lookup_insert].
    split; [|repeat constructor]. eapply hist_cons; [exact St|constructor].
  - split; [apply lookup_insert|]. unfold file_of, w2, started. cbn. rewrite lookup_insert. cbn. apply lookup_insert.
Qed.
Definition gw_gst : gst := (gw_run (Length (gw_reg (gw0 gw_desc))) (gw0 gw_desc)).1.
Lemma gw_late : exists w2 w', start_race (gw0 gw_desc) 0 ex_gen ex_pid [] (gw0 gw_desc) [(w2, CAddMetric 0 2, ROk)] ROk w' /\
  w_regs w' !! 0%nat = Some (set_mapped (gw_reg (gw1 gw_desc)) true) /\ file_of w' wit_sc = Some (g_buf gw_gst).
Proof.
  destruct (gw_regs true) as [R0 R1]. apply (late_one (gw0 gw_desc) 0 wit_sc (gw_reg (gw0 gw_desc)) ex_gen ex_pid gw_gst 2 (gw_ctr (str "writes") []) (gw_reg (gw1 gw_desc))).
  - reflexivity.
  - reflexivity.
  - exact R0.
  - reflexivity.
  - reflexivity.
  - apply (gw_sized true false). vm_cast_no_check (eq_refl true).
  - vm_compute. reflexivity.
  - vm_compute. reflexivity.
Qed.
Definition shows_one (b : list byte) : bool := match Dump b with DOk d => Nat.eqb (length (recs (du_metrics d))) 1 | _ => false end.
Lemma shows_one_ok b : shows_one b = true -> exists d, Dump b = DOk d /\ length (recs (du_metrics d)) = 1%nat.
Proof. unfold shows_one. intros E. destruct (Dump b) as [d| | |]; try discriminate. exists d. split; [reflexivity|]. by apply Nat.eqb_eq. Qed.
Lemma gw_one : exists d, Dump (g_buf gw_gst) = DOk d /\ length (recs (du_metrics d)) = 1%nat.
Proof. apply shows_one_ok. vm_cast_no_check (eq_refl true). Qed.
Lemma gw_not_registered : ~ registered (gw_reg (gw0 gw_desc)) 2.
Proof.
  intros [n H]. assert (forallb (fun x => negb (Nat.eqb x.2 2)) (map_to_list (r_metrics (gw_reg (gw0 gw_desc)))) = true) as F by (vm_compute; reflexivity).
  rewrite forallb_forall in F. apply elem_of_map_to_list, elem_of_list_In in H. specialize (F _ H). discriminate F.
Qed.
