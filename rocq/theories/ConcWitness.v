(** A reachable world with metrics and domains to be registered from several goroutines. *)
From Verif Require Import Base BaseFacts Floats GoVal MetricType ByteWriter Hash Units Indom Metrics Registry Prog
  Client World View RegInv RegFacts WorldInv Life Example Witness RegSteps RegWitness Locks RegConc RegConcFacts RegConcLive.

Definition cw_disk : indom := get no_indom (new_indom (str "disk") [str "a"; str "b"] [str "all disks"]).
Definition cw_net : indom := get no_indom (new_indom (str "net") [str "eth0"] []).
Definition cw_im (n : gostring) (i : gmap gostring goval) (ip : nat) (d : indom) : metric :=
  get no_metric (NewPCPInstanceMetric i n ip d Int32Type InstantSemantics OneUnit [] (map_to_list (id_insts d)).*1).
Definition cw_ab : gmap gostring goval := {[str "a" := VInt 1; str "b" := VInt 2]}.
Definition cw_text : metric := get no_metric (NewPCPCounter 1 (str "reads") [str "number of reads"]).
Definition cw0 : world := put_indom (put_indom ex0 1 cw_disk) 2 cw_net.
Definition cw : world :=
  put_metric (put_metric (put_metric (put_metric (put_metric (put_metric cw0 1 100 (wit_cnt (str "hits")) None) 2 100 (wit_cnt (str "hits")) None)
    3 100 (cw_im (str "disk.r") cw_ab 1 cw_disk) None) 4 100 (cw_im (str "disk.w") cw_ab 1 cw_disk) None) 5 100 cw_text None)
    6 100 (cw_im (str "net.in") {[str "eth0" := VInt 7]} 2 cw_net) None.
Lemma cw_reachable : reachable cw.
Proof.
  unfold cw. repeat (apply put_reachable; [|reflexivity|reflexivity|reflexivity|]).
  - eapply (put_indom_reachable _ _ (str "net") [str "eth0"] []); [|reflexivity|reflexivity|apply get_some; vm_compute; reflexivity].
    eapply (put_indom_reachable _ _ (str "disk") [str "a"; str "b"] [str "all disks"]); [exact ex0_reachable|reflexivity|reflexivity|apply get_some; vm_compute; reflexivity].
  - apply (cr_counter _ _ 1 (str "hits") []); [unfold in_signed; lia|apply get_some; reflexivity].
  - apply (cr_counter _ _ 1 (str "hits") []); [unfold in_signed; lia|apply get_some; reflexivity].
  - eapply (cr_instance _ _ cw_ab (str "disk.r") 1 cw_disk Int32Type InstantSemantics OneUnit [] (map_to_list (id_insts cw_disk)).*1);
      [|cbv; intuition discriminate|reflexivity|reflexivity|apply get_some; vm_compute; reflexivity].
    intros i z H. unfold cw_ab in H. apply lookup_insert_Some in H as [[_ <-]|[_ H]]; [|apply lookup_singleton_Some in H as [_ <-]]; cbv; intuition discriminate.
  - eapply (cr_instance _ _ cw_ab (str "disk.w") 1 cw_disk Int32Type InstantSemantics OneUnit [] (map_to_list (id_insts cw_disk)).*1);
      [|cbv; intuition discriminate|reflexivity|reflexivity|apply get_some; vm_compute; reflexivity].
    intros i z H. unfold cw_ab in H. apply lookup_insert_Some in H as [[_ <-]|[_ H]]; [|apply lookup_singleton_Some in H as [_ <-]]; cbv; intuition discriminate.
  - apply (cr_counter _ _ 1 (str "reads") [str "number of reads"]); [unfold in_signed; lia|apply get_some; reflexivity].
  - eapply (cr_instance _ _ {[str "eth0" := VInt 7]} (str "net.in") 2 cw_net Int32Type InstantSemantics OneUnit [] (map_to_list (id_insts cw_net)).*1);
      [|cbv; intuition discriminate|reflexivity|reflexivity|apply get_some; vm_compute; reflexivity].
    intros i z H. apply lookup_singleton_Some in H as [_ <-]. cbv. intuition discriminate.
Qed.
Lemma cw_reg : w_regs cw !! 0%nat = Some new_registry.
Proof. vm_compute. reflexivity. Qed.

(** Steps in turn, after goroutine 0 took [n] steps. *)
Definition cw_sched (n : nat) : list nat := replicate n 0%nat ++ concat (replicate 40 [1; 0]%nat).
Definition cw_run (n : nat) (css : list (list rcall)) : rmach := rexec (w_heap cw) (cw_sched n) (rm_start new_registry css).
Definition cw_results (m : rmach) : list (list outcome) := map (fun t => (t_done t).*2) (rm_thr m).
Lemma cw_run_ok n css : rall_done (cw_run n css) = true -> rtc (rstep (w_heap cw)) (rm_start new_registry css) (cw_run n css) /\ rm_done (cw_run n css).
Proof. intros H. split; [apply rexec_steps|by apply rall_done_sound]. Qed.
