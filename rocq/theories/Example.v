(** A concrete process: one registry with a metric of every kind, one client, started.
    Used as the non-trivial case beside the theorems. *)
From Verif Require Import Base BaseFacts Floats GoVal MetricType ByteWriter Hash Units Indom Metrics Registry Prog
  Client Mmvdump Ileave ProgProofs Exec Events StartEvents BufFacts Tiling StartGood StartLayout StartFinal StartDone
  View Sections StartView RegInv Update World OpRuns RegFacts WorldInv Sync StartLive FloatFacts ValueFacts MetricFacts SyncLive.

Lemma reachable_step w c o w' : reachable w -> wstep w c o w' -> reachable w'.
Proof. intros R S. eapply rtc_r; [exact R|]. by exists c, o. Qed.

(** ** Objects *)
Definition get {A} (d : A) (o : option A) : A := match o with Some x => x | None => d end.
Definition no_metric : metric := mkMetric (mkDesc 0 [] 0 0 0 [] []) MSingleton (BSingle (mkCell (VInt 0) None)).
Definition no_indom : indom := mkIndom 0 [] ∅ [] [].
Definition ex_ab : list gostring := [str "a"; str "b"].

Definition ex_counter := get no_metric (NewPCPCounter 7 (str "req.count") [str "requests served"]).
Definition ex_string := get no_metric (NewPCPSingletonMetric (VStr (str "hello")) (str "app.name") StringType DiscreteSemantics OneUnit []).
(* 1.5 *)
Definition ex_gauge := get no_metric (NewPCPGauge 0x3FF8000000000000 (str "load") []).
Definition ex_timer := get no_metric (NewPCPTimer (str "busy") SecondUnit [str "short"; str "long"]).
Definition ex_cv := get (no_indom, no_metric) (NewPCPCounterVector {[str "a" := 5; str "b" := 1]} (str "disk.io") [] 1 ex_ab ex_ab).
Definition ex_gv := get (no_indom, no_metric) (NewPCPGaugeVector {[str "a" := 0x3FF8000000000000; str "b" := 0]} (str "disk.load") [] 2 ex_ab ex_ab).
Definition ex_hist := get ((0, 0, 0), no_metric) (NewPCPHistogram (str "latency") 0 1000 3 MillisecondUnit [] 0 histogramIndom (map_to_list (id_insts histogramIndom)).*1).
Definition ex_inst := get no_metric (NewPCPInstanceMetric {[str "a" := VStr (str "up"); str "b" := VStr (str "down")]} (str "disk.state") 1 ex_cv.1 StringType InstantSemantics OneUnit [] (map_to_list (id_insts ex_cv.1)).*1).

(** ** The world *)
Definition put_metric (w : world) (mp : nat) (ip : nat) (m : metric) (new : option indom) : world :=
  mkWorld (mkHeap (match new with Some d => <[ip := d]> (h_indoms (w_heap w)) | None => h_indoms (w_heap w) end)
             (<[mp := m]> (h_metrics (w_heap w)))) (w_regs w) (w_clients w) (w_files w) (w_paths w) (w_offs w) false.
Definition reg_metric (w : world) (rid mp : nat) : world :=
  match w_regs w !! rid, h_metrics (w_heap w) !! mp with
  | Some r, Some m => set_regs w (<[rid := (add_metric (w_heap w) r mp m).2]> (w_regs w))
  | _, _ => w
  end.
Definition ex_loc : gostring := str "/var/tmp/mmv/example".
Definition ex0 : world :=
  let w := set_regs w_init (<[0%nat := new_registry]> ∅) in
  mkWorld (w_heap w) (w_regs w) (<[0%nat := mkClient ex_loc (hash (str "example") PCPClusterIDBitLength) ProcessFlag 0 None]> ∅)
    (w_files w) (w_paths w) (w_offs w) false.
Definition exm : world :=
  put_metric (put_metric (put_metric (put_metric (put_metric (put_metric (put_metric (put_metric ex0 1 100 ex_counter None) 2 100 ex_string None)
    3 100 ex_gauge None) 4 100 ex_timer None) 5 1 ex_cv.2 (Some ex_cv.1)) 6 2 ex_gv.2 (Some ex_gv.1)) 7 100 ex_hist.2 None) 8 100 ex_inst None.
Definition exw : world := foldl (fun w mp => reg_metric w 0 mp) exm [1; 2; 3; 4; 5; 6; 7; 8]%nat.

Lemma put_reachable w mp ip m new : reachable w -> w_dead w = false -> h_metrics (w_heap w) !! mp = None -> h_indoms (w_heap w) !! ip = None ->
  created (w_heap w) ip m new -> reachable (put_metric w mp ip m new).
Proof. intros R. intros. eapply reachable_step; [exact R|]. by apply (ws_new_metric w mp ip m new). Qed.
Lemma reg_reachable w rid mp : reachable w -> w_dead w = false -> reachable (reg_metric w rid mp).
Proof.
  intros R D. unfold reg_metric. destruct (w_regs w !! rid) as [r|] eqn:Er; [|exact R]. destruct (h_metrics (w_heap w) !! mp) as [m|] eqn:Em; [|exact R].
  destruct (add_metric (w_heap w) r mp m) as [o r'] eqn:Ea. eapply reachable_step; [exact R|]. by eapply ws_add_metric.
Qed.

Lemma ex0_reachable : reachable ex0.
Proof.
  eapply (reachable_step (set_regs w_init (<[0%nat := new_registry]> ∅))).
  - eapply reachable_step; [apply rtc_refl|]. apply (ws_new_registry w_init 0); reflexivity.
  - apply (ws_new_client (set_regs w_init (<[0%nat := new_registry]> ∅)) 0 (str "example") ex_loc 0); [reflexivity|reflexivity|]. vm_compute. eauto.
Qed.

Lemma ex_ab_perm d : bool_decide (dom (id_insts d) = list_to_set ex_ab) = true -> ex_ab ≡ₚ (map_to_list (id_insts d)).*1.
Proof.
  intros H. apply bool_decide_eq_true in H. apply NoDup_Permutation.
  - apply (bool_decide_eq_true_1 _). vm_compute. reflexivity.
  - apply NoDup_fst_map_to_list.
  - intros i. transitivity (i ∈ dom (id_insts d)); [rewrite H; by rewrite elem_of_list_to_set|]. rewrite elem_of_dom, elem_of_list_fmap. split.
    + intros [z Hz]. exists (i, z). split; [reflexivity|by apply elem_of_map_to_list].
    + intros ([j z] & -> & Hz). apply elem_of_map_to_list in Hz. eauto.
Qed.
Lemma get_some {A} (d : A) o : match o with Some _ => true | None => false end = true -> o = Some (get d o).
Proof. by destruct o. Qed.

Lemma exm_reachable : reachable exm.
Proof.
  unfold exm. repeat (apply put_reachable; [|reflexivity|reflexivity|reflexivity|]).
  - apply ex0_reachable.
  - eapply (cr_counter _ _ 7 (str "req.count") [str "requests served"]); [cbv; intuition discriminate|apply get_some; reflexivity].
  - eapply (cr_singleton _ _ (VStr (str "hello")) (str "app.name") StringType DiscreteSemantics OneUnit []); [|cbv; intuition discriminate|apply get_some; reflexivity].
    exact I.
  - eapply (cr_gauge _ _ 0x3FF8000000000000 (str "load") []); [cbv; intuition discriminate|apply get_some; reflexivity].
  - eapply (cr_timer _ _ (str "busy") SecondUnit [str "short"; str "long"]); [cbv; intuition discriminate|apply get_some; reflexivity].
  - eapply (cr_cvector _ _ {[str "a" := 5; str "b" := 1]} (str "disk.io") [] ex_ab ex_ab).
    + intros i z H. apply lookup_insert_Some in H as [[_ <-]|[_ H]]; [|apply lookup_singleton_Some in H as [_ <-]]; cbv; intuition discriminate.
    + change ({[str "a" := 5; str "b" := 1]} : gmap gostring Z) with (id_insts (mkIndom 0 [] {[str "a" := 5; str "b" := 1]} [] [])). apply ex_ab_perm. vm_compute. reflexivity.
    + apply ex_ab_perm. vm_compute. reflexivity.
    + unfold ex_cv. destruct (NewPCPCounterVector _ _ _ _ _ _) as [[d m]|] eqn:E; [reflexivity|]. exfalso. apply (f_equal (fun o => match o with Some _ => true | None => false end)) in E. vm_compute in E. discriminate.
  - eapply (cr_gvector _ _ {[str "a" := 0x3FF8000000000000; str "b" := 0]} (str "disk.load") [] ex_ab ex_ab).
    + intros i z H. apply lookup_insert_Some in H as [[_ <-]|[_ H]]; [|apply lookup_singleton_Some in H as [_ <-]]; cbv; intuition discriminate.
    + change ({[str "a" := 0x3FF8000000000000; str "b" := 0]} : gmap gostring Z) with (id_insts (mkIndom 0 [] {[str "a" := 0x3FF8000000000000; str "b" := 0]} [] [])). apply ex_ab_perm. vm_compute. reflexivity.
    + apply ex_ab_perm. vm_compute. reflexivity.
    + unfold ex_gv. destruct (NewPCPGaugeVector _ _ _ _ _ _) as [[d m]|] eqn:E; [reflexivity|]. exfalso. apply (f_equal (fun o => match o with Some _ => true | None => false end)) in E. vm_compute in E. discriminate.
  - eapply (cr_histogram _ _ (str "latency") 0 1000 3 MillisecondUnit [] histogramIndom (map_to_list (id_insts histogramIndom)).*1 ex_hist.1);
      [cbv; intuition discriminate|reflexivity|reflexivity|].
    unfold ex_hist. destruct (NewPCPHistogram _ _ _ _ _ _ _ _ _) as [[d m]|] eqn:E; [reflexivity|]. exfalso. apply (f_equal (fun o => match o with Some _ => true | None => false end)) in E. vm_compute in E. discriminate.
  - eapply (cr_instance _ _ {[str "a" := VStr (str "up"); str "b" := VStr (str "down")]} (str "disk.state") 1 ex_cv.1 StringType InstantSemantics OneUnit [] (map_to_list (id_insts ex_cv.1)).*1);
      [|cbv; intuition discriminate|reflexivity|reflexivity|apply get_some; vm_compute; reflexivity].
    intros i z H. apply lookup_insert_Some in H as [[_ <-]|[_ H]]; [|apply lookup_singleton_Some in H as [_ <-]]; exact I.
Qed.
Lemma exw_reachable : reachable exw.
Proof. unfold exw. cbn [foldl]. repeat (apply reg_reachable; [|vm_compute; reflexivity]). exact exm_reachable. Qed.

(** ** Started *)
Definition exr : registry := get new_registry (w_regs exw !! 0%nat).
Definition exc : client := get (mkClient [] 0 0 0 None) (w_clients exw !! 0%nat).
Definition ex_gen : Z := 1480000000.
Definition ex_pid : Z := 4711.
Definition exk : cfg := start_cfg exc exr ex_gen ex_pid.

Lemma exw_reg : w_regs exw !! 0%nat = Some exr.
Proof. apply get_some. vm_compute. reflexivity. Qed.
Lemma exw_client : w_clients exw !! 0%nat = Some exc.
Proof. reflexivity. Qed.

Lemma exw_ok : w_ok exw.
Proof. apply reachable_ok, exw_reachable. Qed.

Lemma forallb_Forall {A} (P : A -> Prop) (f : A -> bool) l : (forall x, f x = true -> P x) -> forallb f l = true -> Forall P l.
Proof. intros H. induction l as [|x l IH]; cbn; [constructor|]. intros E. apply andb_prop in E as [E1 E2]. constructor; auto. Qed.
Definition val_fitsb (v : goval) : bool := match v with VStr s => zlen s <=? 256 | _ => true end.
Lemma val_fitsb_ok v : val_fitsb v = true -> val_fits v.
Proof. destruct v; cbn; auto. lia. Qed.
Definition body_fitsb (b : mbody) : bool :=
  match b with BSingle c => val_fitsb (c_val c) | BInst _ cells => forallb (fun x => val_fitsb (c_val x.2)) (map_to_list cells) end.
Lemma body_fitsb_ok b : body_fitsb b = true -> body_fits b.
Proof.
  destruct b as [c|ip cells]; cbn; [apply val_fitsb_ok|]. intros H n c Hc. rewrite forallb_forall in H.
  apply val_fitsb_ok, (H (n, c)). by apply elem_of_list_In, elem_of_map_to_list.
Qed.
(** A decision procedure for [startable], enough for examples. *)
Definition startableb (hp : heap) (r : registry) : bool :=
  (bool_decide (map_to_list (r_indoms r) = []) || existsb (fun d => 0 <? Z.of_nat (size (id_insts d))) (reg_indoms hp r)) &&
  forallb (fun d => (zlen (id_short d) <=? 256) && (zlen (id_long d) <=? 256)) (reg_indoms hp r) &&
  forallb (fun m => (zlen (md_short (m_desc m)) <=? 256) && (zlen (md_long (m_desc m)) <=? 256) && body_fitsb (m_body m)) (reg_metrics hp r) &&
  forallb (fun m => match m_body m with
                    | BInst ip _ => match h_indoms hp !! ip with
                                    | Some d => match r_indoms r !! id_name d with Some ip' => Nat.eqb ip' ip | None => false end
                                    | None => true end
                    | _ => true end) (reg_metrics hp r) &&
  (InstanceDomainCount r <? 2 ^ 31) && (InstanceCount r <? 2 ^ 31) && (MetricCount r <? 2 ^ 31) && (ValuesCount r <? 2 ^ 31) && (StringCount r <? 2 ^ 31).
Lemma startableb_ok hp r : startableb hp r = true -> startable hp r.
Proof.
  unfold startableb. intros H. do 5 (apply andb_prop in H as [H ?]). apply andb_prop in H as [H HL]. apply andb_prop in H as [H HM]. apply andb_prop in H as [H HD]. split.
  - apply orb_true_iff in H as [H|H]; [left|right].
    + apply bool_decide_eq_true in H. by apply map_to_list_empty_iff.
    + apply existsb_exists in H as (d & Hd & H). apply Exists_exists. exists d. split; [by apply elem_of_list_In|]. intros E. rewrite E, map_size_empty in H. cbn in H. lia.
  - eapply forallb_Forall; [|exact HD]. cbn. lia.
  - eapply forallb_Forall; [|exact HM]. cbn. intros m E. apply andb_prop in E as [E E2]. split_and!; try lia. by apply body_fitsb_ok.
  - eapply forallb_Forall; [|exact HL]. cbn. intros m E ip cells d Hb Hd. rewrite Hb, Hd in E. destruct (r_indoms r !! id_name d) as [ip'|]; [|discriminate].
    apply Nat.eqb_eq in E. by subst.
  - unfold counts_ok. lia.
Qed.

Lemma exw_startable : startable (w_heap exw) exr.
Proof. apply startableb_ok. vm_compute. reflexivity. Qed.

(** Start under a fixed schedule that switches goroutines all the time, computed. *)
Definition ex_sched (seed : nat) : list nat := concat (replicate 400 [seed; 3; 0; 5; 1; 8; 2; 6; 4; 13; 7; 0; 0; 9; 1]%nat).
Definition ex_run (seed : nat) : gst * prog := run (Length exr) (ex_sched seed) (start_state exr (w_offs exw) ∅) (start_prog exk (std_plan (w_heap exw) exr)).
Definition run_done (x : gst * prog) : bool := match x.2 with PRet => true | _ => false end && negb (g_panic x.1).
Lemma ex_run_done : run_done (ex_run 0) = true.
Proof. vm_cast_no_check (eq_refl true). Qed.
Lemma done_split (x : gst * prog) : run_done x = true -> x = (x.1, PRet) /\ g_panic x.1 = false.
Proof. destruct x as [s p]. unfold run_done. cbn. intros H. apply andb_prop in H as [H1 H2]. split; [by destruct p|by destruct (g_panic s)]. Qed.
Definition ex_gst : gst := (ex_run 0).1.
Definition exs : world := started exw 0 exc exr 0 0 ex_gst.

Lemma ex_start_run : start_run (w_heap exw) (w_offs exw) exk ex_gst.
Proof.
  destruct (done_split _ ex_run_done) as [H1 H2]. exists (std_plan (w_heap exw) exr). split; [|split; [|exact H2]].
  - exact (std_plan_ok _ _ (wo_heap _ exw_ok) (wo_regs _ exw_ok _ _ exw_reg)).
  - unfold ex_gst. rewrite <- H1. unfold ex_run. apply run_steps.
Qed.
Lemma exs_step : wstep exw (CStart 0 ex_gen ex_pid true) ROk exs.
Proof. eapply ws_start; [reflexivity|apply exw_client|exact exw_reg|reflexivity|reflexivity|exact ex_start_run]. Qed.
Lemma exs_reachable : reachable exs.
Proof. eapply reachable_step; [exact exw_reachable|exact exs_step]. Qed.
Lemma exs_ok : w_ok exs.
Proof. apply reachable_ok, exs_reachable. Qed.
Lemma exs_synced : synced exs 0 ex_gen ex_pid.
Proof. eapply start_synced; [exact exw_ok|apply exw_client|exact exw_reg|reflexivity|reflexivity|exact exw_startable|exact ex_start_run]. Qed.

Definition ex_buf : list byte := Eval vm_compute in g_buf (ex_run 0).1.
Lemma ex_buf_eq : g_buf ex_gst = ex_buf.
Proof. vm_cast_no_check (eq_refl ex_buf). Qed.
Lemma exs_file : w_paths exs !! ex_loc = Some 0%nat /\ f_inodes (w_files exs) !! 0%nat = Some ex_buf.
Proof. split; [apply lookup_insert|]. rewrite <- ex_buf_eq. apply lookup_insert. Qed.

(** The metrics of a started world: same values, updatable. *)
Lemma started_metric w cid c r wr ino s gen pid mp m : w_ok w -> w_dead w = false -> w_clients w !! cid = Some c -> w_regs w !! cl_reg c = Some r ->
  f_writers (w_files w) !! wr = None -> f_inodes (w_files w) !! ino = None -> startable (w_heap w) r ->
  start_run (w_heap w) (w_offs w) (start_cfg c r gen pid) s -> registered r mp -> h_metrics (w_heap w) !! mp = Some m ->
  exists m', h_metrics (w_heap (started w cid c r wr ino s)) !! mp = Some m' /\ m_desc m' = m_desc m /\ m_kind m' = m_kind m /\
    (forall n, val_at m' n = val_at m n) /\ live (w_files (started w cid c r wr ino s)) m' /\ m_indom m' = m_indom m.
Proof.
  intros W Hd Hc Hr Hw Hi Hs SR HR Hm. eexists. split; [unfold started; cbn [w_heap]; rewrite set_upds_lookup, Hm; reflexivity|]. split; [reflexivity|]. split; [reflexivity|]. split; [|split; [|apply upds_indom]].
  - intros n. unfold val_at. rewrite cell_at_upds. destruct (cell_at m n); [|reflexivity]. cbn. by rewrite set_cell_val.
  - eapply (synced_live (started w cid c r wr ino s) cid gen pid).
    + eapply wstep_ok; [exact W|]. by eapply (ws_start w cid gen pid).
    + by apply start_synced.
    + apply lookup_insert.
    + cbn. apply lookup_insert.
    + exact HR.
    + unfold started; cbn [w_heap]. rewrite set_upds_lookup, Hm. reflexivity.
Qed.
Lemma exs_metric mp m : registered exr mp -> h_metrics (w_heap exw) !! mp = Some m ->
  exists m', h_metrics (w_heap exs) !! mp = Some m' /\ m_desc m' = m_desc m /\ m_kind m' = m_kind m /\ (forall n, val_at m' n = val_at m n) /\ live (w_files exs) m' /\ m_indom m' = m_indom m.
Proof.
  intros HR Hm. eapply started_metric; [exact exw_ok|reflexivity|apply exw_client|exact exw_reg|reflexivity|reflexivity|exact exw_startable|exact ex_start_run|exact HR|exact Hm].
Qed.
Lemma ex_registered mp : existsb (fun x => Nat.eqb x.2 mp) (map_to_list (r_metrics exr)) = true -> registered exr mp.
Proof.
  intros H. apply existsb_exists in H as ([n mp'] & H & E). apply Nat.eqb_eq in E. cbn in E. subst mp'. exists n.
  by apply elem_of_list_In, elem_of_map_to_list in H.
Qed.

(** Comparing files quickly. *)
Definition file0 (fs : files) : option (list byte) := f_inodes fs !! 0%nat.
Definition differ (a b : option (list byte)) : bool :=
  match a, b with Some x, Some y => existsb (fun p => negb (byteZ p.1 =? byteZ p.2)) (zip x y) | _, _ => false end.
Lemma differ_neq a b : differ a b = true -> a <> b.
Proof.
  destruct a as [x|], b as [y|]; try discriminate. cbn. intros H E. injection E as <-.
  apply existsb_exists in H as ([u v] & Hin & H). cbn in H. assert (u = v) as ->; [|lia]. clear H. induction x as [|a x IH]; [destruct Hin|].
  destruct Hin as [E|Hin]; [congruence|auto].
Qed.

(** One update, with the resulting world kept abstract. *)
Lemma step_update w mp op m o fs' m' : w_dead w = false -> h_metrics (w_heap w) !! mp = Some m -> op_args (w_heap w) m op ->
  run_op (w_files w) (w_heap w) m op = Some (o, fs', m') ->
  exists w', wstep w (CUpdate mp op false) o w' /\ h_metrics (w_heap w') !! mp = Some m' /\ w_files w' = fs' /\ w_dead w' = is_fault o.
Proof. intros Hd Hm Ha Hr. eexists. split; [by eapply ws_update|]. split_and!; [apply lookup_insert|reflexivity..]. Qed.
Lemma exw_dead : w_dead exw = false.
Proof. vm_compute. reflexivity. Qed.
Lemma exw_metric mp : h_metrics (w_heap exw) !! mp = h_metrics (w_heap exm) !! mp.
Proof. vm_compute. reflexivity. Qed.
Lemma set_damages fs m v : (let t := m_set fs m v in match t.1.1 with RErr => true | _ => false end && differ (file0 t.1.2) (file0 fs)) = true ->
  exists fs' m', m_set fs m v = (RErr, fs', m') /\ file0 fs' <> file0 fs.
Proof.
  destruct (m_set fs m v) as [[o fs'] m']. cbn [fst snd]. intros H. apply andb_prop in H as [H1 H2]. exists fs', m'.
  split; [by destruct o|by apply differ_neq].
Qed.
