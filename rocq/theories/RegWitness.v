(** Reachable worlds used as counterexamples to the registry properties. *)
From Verif Require Import Base BaseFacts Floats GoVal MetricType ByteWriter Hash Units Indom Metrics Registry Prog
  Client Mmvdump Ileave ProgProofs Exec Events StartEvents BufFacts Tiling StartGood StartLayout StartFinal StartDone
  View Sections StartView RegInv Update World OpRuns RegFacts WorldInv Sync StartLive FloatFacts ValueFacts MetricFacts SyncLive SyncView
  Life Example Witness RegSteps.

(** ** Two counters whose names have the same 10 bit hash *)
Definition wit_cnt (n : gostring) : metric := get no_metric (NewPCPCounter 1 n []).
Definition wit_c : world := reg_metric (reg_metric (put_metric (put_metric wit1 1 100 (wit_cnt (str "net.out")) None) 2 100 (wit_cnt (str "m82")) None) 0 1) 0 2.
Lemma wit_c_reachable : reachable wit_c.
Proof.
  unfold wit_c. repeat (apply reg_reachable; [|reflexivity]). repeat (apply put_reachable; [|reflexivity|reflexivity|reflexivity|]); [exact wit1_reachable| |].
  - apply (cr_counter _ _ 1 (str "net.out") []); [unfold in_signed; lia|apply get_some; reflexivity].
  - apply (cr_counter _ _ 1 (str "m82") []); [unfold in_signed; lia|apply get_some; reflexivity].
Qed.
Definition wit_cr : registry := get new_registry (w_regs wit_c !! 0%nat).
Lemma wit_cr_eq : w_regs wit_c !! 0%nat = Some wit_cr.
Proof. apply get_some. vm_compute. reflexivity. Qed.

(** ** Two domain objects of the same name *)
Definition wit_da : indom := get no_indom (new_indom (str "dom") [str "a"] []).
Definition wit_db : indom := get no_indom (new_indom (str "dom") [str "b"] []).
Definition wit_im (n i : gostring) (ip : nat) (d : indom) : metric :=
  get no_metric (NewPCPInstanceMetric {[i := VInt 5]} n ip d Int32Type InstantSemantics OneUnit [] (map_to_list (id_insts d)).*1).
Definition wit_i0 : world := put_indom (put_indom wit1 1 wit_da) 2 wit_db.
Definition wit_i1 : world := put_metric (put_metric wit_i0 1 100 (wit_im (str "m.a") (str "a") 1 wit_da) None) 2 100 (wit_im (str "m.b") (str "b") 2 wit_db) None.
Definition wit_i : world := reg_metric (reg_metric wit_i1 0 1) 0 2.
Lemma wit_i_reachable : reachable wit_i.
Proof.
  unfold wit_i. repeat (apply reg_reachable; [|vm_compute; reflexivity]). unfold wit_i1. repeat (apply put_reachable; [|reflexivity|reflexivity|reflexivity|]).
  - eapply (put_indom_reachable _ _ (str "dom") [str "b"] []); [|reflexivity|reflexivity|apply get_some; vm_compute; reflexivity].
    eapply (put_indom_reachable _ _ (str "dom") [str "a"] []); [exact wit1_reachable|reflexivity|reflexivity|apply get_some; vm_compute; reflexivity].
  - eapply (cr_instance _ _ {[str "a" := VInt 5]} (str "m.a") 1 wit_da Int32Type InstantSemantics OneUnit [] (map_to_list (id_insts wit_da)).*1);
      [|cbv; intuition discriminate|reflexivity|reflexivity|apply get_some; vm_compute; reflexivity].
    intros i z H. apply lookup_singleton_Some in H as [_ <-]. cbv. intuition discriminate.
  - eapply (cr_instance _ _ {[str "b" := VInt 5]} (str "m.b") 2 wit_db Int32Type InstantSemantics OneUnit [] (map_to_list (id_insts wit_db)).*1);
      [|cbv; intuition discriminate|reflexivity|reflexivity|apply get_some; vm_compute; reflexivity].
    intros i z H. apply lookup_singleton_Some in H as [_ <-]. cbv. intuition discriminate.
Qed.
Definition wit_ir : registry := get new_registry (w_regs wit_i !! 0%nat).
Lemma wit_ir_eq : w_regs wit_i !! 0%nat = Some wit_ir.
Proof. apply get_some. vm_compute. reflexivity. Qed.
Lemma wit_ic_eq : w_clients wit_i !! 0%nat = Some (wit_client 0).
Proof. vm_compute. reflexivity. Qed.
Lemma wit_i_ok : w_ok wit_i.
Proof. apply reachable_ok, wit_i_reachable. Qed.
Lemma wit_i_done : run_done (wit_run wit_i wit_ir (wit_client 0)) = true.
Proof. vm_cast_no_check (eq_refl true). Qed.
Definition wit_is : world := started wit_i 0 (wit_client 0) wit_ir 0 0 (wit_run wit_i wit_ir (wit_client 0)).1.
Lemma wit_i_step : wstep wit_i (CStart 0 ex_gen ex_pid true) ROk wit_is.
Proof.
  eapply ws_start; [vm_compute; reflexivity|exact wit_ic_eq|exact wit_ir_eq|vm_compute; reflexivity|vm_compute; reflexivity|].
  apply run_started; [apply wit_i_ok|exact (wo_regs _ wit_i_ok _ _ wit_ir_eq)|exact wit_i_done].
Qed.
(** A value of a metric with a domain that refers to no instance. *)
Definition loose (d : dump) : Prop := exists o v m, du_values d !! o = Some v /\ du_metrics d !! dv_metric v = Some m /\ dm_indom m <> -1 /\ dv_instance v = 0.
Definition looseb (d : dump) : bool :=
  existsb (fun p => match du_metrics d !! dv_metric p.2 with Some m => negb (dm_indom m =? -1) && (dv_instance p.2 =? 0) | None => false end) (map_to_list (du_values d)).
Lemma looseb_ok d : looseb d = true -> loose d.
Proof.
  intros H. apply existsb_exists in H as ([o v] & Hin & H). cbn [fst snd] in H. apply elem_of_list_In, elem_of_map_to_list in Hin.
  destruct (du_metrics d !! dv_metric v) as [m|] eqn:E; [|discriminate]. apply andb_prop in H as [H1 H2]. exists o, v, m. split_and!; auto; lia.
Qed.
Lemma loose_run w c r s : match Dump (g_buf s) with DOk d => looseb d | _ => false end = true ->
  exists b d, file_of (started w 0 c r 0 0 s) c = Some b /\ Dump b = DOk d /\ loose d.
Proof.
  intros H. exists (g_buf s). destruct (Dump (g_buf s)) as [d| | |]; try discriminate. exists d. split_and!; [|reflexivity|by apply looseb_ok].
  unfold file_of, started. cbn. rewrite lookup_insert. cbn. apply lookup_insert.
Qed.
Lemma wit_i_loose : exists b d, file_of wit_is (wit_client 0) = Some b /\ Dump b = DOk d /\ loose d.
Proof. apply loose_run. vm_cast_no_check (eq_refl true). Qed.

(** ** A by-string registration that fails after its domain was added *)
Definition wit_bs : outcome * heap * registry :=
  add_by_string (w_heap wit1) new_registry 1 1 (str "disk.io") (str "disk") (Some [str "sda"; str "sdb"]) (AInst {[str "sda" := VInt 1]}) Int32Type InstantSemantics OneUnit
    (map_to_list (id_insts (get no_indom (new_indom (str "disk") [str "sda"; str "sdb"] [])))).*1.
Definition wit_b : world := mkWorld wit_bs.1.2 (<[0%nat := wit_bs.2]> (w_regs wit1)) (w_clients wit1) (w_files wit1) (w_paths wit1) (w_offs wit1) false.
Lemma wit_b_step : wstep wit1 (CAddByString 0 1 1 (str "disk.io") (str "disk") (Some [str "sda"; str "sdb"]) (AInst {[str "sda" := VInt 1]}) Int32Type InstantSemantics OneUnit) RErr wit_b.
Proof.
  eapply (ws_add_by_string wit1 0 1 1 (str "disk.io") (str "disk") (Some [str "sda"; str "sdb"]) (AInst {[str "sda" := VInt 1]}) Int32Type InstantSemantics OneUnit);
    [reflexivity|reflexivity|reflexivity|reflexivity| |cbv; intuition discriminate| |].
  - cbn. intros i v H. apply lookup_singleton_Some in H as [_ <-]. cbv. intuition discriminate.
  - cbn [by_string_ord]. change (r_indoms new_registry !! str "disk") with (None (A := nat)). intros d Hd. instantiate (1 := (map_to_list (id_insts (get no_indom (new_indom (str "disk") [str "sda"; str "sdb"] [])))).*1).
    by rewrite Hd.
  - unfold wit_b. fold wit_bs. assert (wit_bs.1.1 = RErr) as E by (vm_compute; reflexivity). revert E. destruct wit_bs as [[o hp] r]. cbn. by intros ->.
Qed.

(** ** A domain and a metric on it, registered with AddMetric *)
Definition wit_k : world := reg_metric (put_metric (put_indom wit1 1 wit_da) 1 100 (wit_im (str "m.a") (str "a") 1 wit_da) None) 0 1.
Definition wit_kr : registry := get new_registry (w_regs wit_k !! 0%nat).
Lemma wit_kr_eq : w_regs wit_k !! 0%nat = Some wit_kr.
Proof. apply get_some. vm_compute. reflexivity. Qed.
Lemma phist_snoc P w tr w' c o w'' : phist P w tr w' -> P w' c -> wstep w' c o w'' -> phist P w (tr ++ [(w', c, o)]) w''.
Proof. induction 1; intros; cbn; econstructor; eauto. constructor. Qed.
Lemma wit_k_hist : exists tr, phist links_ok w_init tr wit_k.
Proof.
  assert (exists tr, phist links_ok w_init tr wit1) as [t1 H1].
  { eexists. eapply (ph_cons _ _ (CNewRegistry 0)); [exact I|apply (ws_new_registry w_init 0); reflexivity|].
    eapply (ph_cons _ _ (CNewClient 0 (str "one") (str "/tmp/mmv/one") 0)); [exact I| |constructor].
    apply (ws_new_client wit_reg 0 (str "one") (str "/tmp/mmv/one") 0); [reflexivity|reflexivity|]. eexists. reflexivity. }
  eexists. eapply (phist_snoc _ _ _ _ (CAddMetric 0 1)); [eapply (phist_snoc _ _ _ _ (CNewMetric 1 100)); [eapply (phist_snoc _ _ _ _ (CNewIndom 1)); [exact H1|exact I|]|exact I|]|..].
  - apply (ws_new_indom wit1 1 (str "dom") [str "a"] [] wit_da); [reflexivity|reflexivity|apply get_some; vm_compute; reflexivity].
  - match goal with |- wstep ?w _ _ _ => apply (ws_new_metric w 1 100 (wit_im (str "m.a") (str "a") 1 wit_da) None); [reflexivity|reflexivity|reflexivity|] end.
    eapply (cr_instance _ _ {[str "a" := VInt 5]} (str "m.a") 1 wit_da Int32Type InstantSemantics OneUnit [] (map_to_list (id_insts wit_da)).*1);
      [|cbv; intuition discriminate|reflexivity|reflexivity|apply get_some; vm_compute; reflexivity].
    intros i z H. apply lookup_singleton_Some in H as [_ <-]. cbv. intuition discriminate.
  - intros r m ip d ip' Hr Hm Hi Hd Hl. exfalso. assert (r = new_registry) as ->.
    { change (Some new_registry = Some r) in Hr. congruence. } cbn [r_indoms new_registry] in Hl. rewrite lookup_empty in Hl. discriminate.
  - match goal with |- wstep ?w _ _ _ => pose proof (ws_add_metric w 0 1 new_registry (wit_im (str "m.a") (str "a") 1 wit_da) ROk wit_kr eq_refl eq_refl eq_refl) as S end.
    apply S. vm_compute. reflexivity.
Qed.

Lemma started_facts w cid c r wr ino s : w_dead (started w cid c r wr ino s) = false /\ w_regs (started w cid c r wr ino s) !! cl_reg c = Some (set_mapped r true) /\
  h_indoms (w_heap (started w cid c r wr ino s)) = h_indoms (w_heap w).
Proof. split_and!; [reflexivity|apply lookup_insert|reflexivity]. Qed.
(** AddInstanceDomain on a registry just mapped. *)
Lemma started_add w cid c r wr ino s ip d : h_indoms (w_heap w) !! ip = Some d ->
  exists o w2, phist (fun w' cl => ~ stops w' (cl_reg c) cl) (started w cid c r wr ino s) [(started w cid c r wr ino s, CAddIndom (cl_reg c) ip, o)] w2.
Proof.
  destruct (started_facts w cid c r wr ino s) as (A1 & A2 & A3). set (w1 := started w cid c r wr ino s) in *. clearbody w1. intros Hd.
  eexists _, _. eapply ph_cons; [|apply (ws_add_indom w1 (cl_reg c) ip _ d A1 A2); by rewrite A3|constructor]. cbn. tauto.
Qed.
Lemma add_indom_fails w rid ip r d : w_dead w = false -> w_regs w !! rid = Some r -> h_indoms (w_heap w) !! ip = Some d -> add_indom r ip d = None ->
  exists w', wstep w (CAddIndom rid ip) RErr w'.
Proof. intros A1 A2 A3 A4. pose proof (ws_add_indom w rid ip r d A1 A2 A3) as S. rewrite A4 in S. eauto. Qed.
