(** A client whose only instance domain is named "xtdev". The FNV-1a hash of that name is 0x4e800000, so that
    the 22 bits used for the identifier of a domain are 0. *)
From Verif Require Import Base BaseFacts Floats GoVal MetricType ByteWriter Hash Units Indom Metrics Registry Prog
  Client Mmvdump Ileave ProgProofs Exec Events StartEvents BufFacts Tiling StartGood StartLayout StartFinal StartDone
  View Sections StartView RegInv Update World OpRuns RegFacts WorldInv Sync StartLive FloatFacts ValueFacts MetricFacts SyncLive SyncView Life Example Witness
  DumpText TextView.

Definition zd_dom : indom := get no_indom (new_indom (str "xtdev") [str "a"; str "b"] []).
Definition zd_vals : gmap gostring goval := {[str "a" := VInt 5; str "b" := VInt 6]}.
Definition zd_metric : metric := get no_metric (NewPCPInstanceMetric zd_vals (str "disk.io") 1 zd_dom Int32Type InstantSemantics OneUnit [] (map_to_list (id_insts zd_dom)).*1).
Definition zd_w : world := reg_metric (put_metric (put_indom ex0 1 zd_dom) 2 100 zd_metric None) 0 2.
Lemma zd_reachable : reachable zd_w.
Proof.
  unfold zd_w. apply reg_reachable; [|reflexivity]. apply put_reachable; [|reflexivity|reflexivity|reflexivity|].
  - eapply (put_indom_reachable _ _ (str "xtdev") [str "a"; str "b"] []); [exact ex0_reachable|reflexivity|reflexivity|apply get_some; vm_compute; reflexivity].
  - eapply (cr_instance _ _ zd_vals (str "disk.io") 1 zd_dom Int32Type InstantSemantics OneUnit [] (map_to_list (id_insts zd_dom)).*1);
      [|cbv; intuition discriminate|reflexivity|reflexivity|apply get_some; vm_compute; reflexivity].
    unfold zd_vals. intros i z H. apply lookup_insert_Some in H as [[_ <-]|[_ H]]; [|apply lookup_singleton_Some in H as [_ <-]]; unfold wf_goval, in_signed; lia.
Qed.
Definition zd_r : registry := get new_registry (w_regs zd_w !! 0%nat).
Lemma zd_reg : w_regs zd_w !! 0%nat = Some zd_r.
Proof. apply get_some. vm_compute. reflexivity. Qed.
Lemma zd_client : w_clients zd_w !! 0%nat = Some wit_sc.
Proof. vm_compute. reflexivity. Qed.
Lemma zd_ok : w_ok zd_w.
Proof. apply reachable_ok, zd_reachable. Qed.
Lemma zd_startable : startable (w_heap zd_w) zd_r.
Proof. apply startableb_ok. vm_compute. reflexivity. Qed.
Lemma zd_done : run_done (wit_run zd_w zd_r wit_sc) = true.
Proof. vm_cast_no_check (eq_refl true). Qed.
Definition zd_s : world := started zd_w 0 wit_sc zd_r 0 0 (wit_run zd_w zd_r wit_sc).1.
Lemma zd_step : wstep zd_w (CStart 0 ex_gen ex_pid true) ROk zd_s.
Proof.
  eapply ws_start; [reflexivity|exact zd_client|exact zd_reg|reflexivity|reflexivity|].
  apply run_started; [apply zd_ok|exact (wo_regs _ zd_ok _ _ zd_reg)|exact zd_done].
Qed.

(** The text. *)
Definition is_text (p : piece) : bool := match p with PB _ => true | _ => false end.
Definition dump_text (b : option (list byte)) : option (list byte) :=
  match b with
  | Some b => match Dump b with
      | DOk d => match Write d with WOk o => if forallb is_text o then Some (flatten (fun _ => []) (fun _ => []) o) else None | _ => None end
      | _ => None end
  | None => None
  end.
Lemma dump_text_ok b t : dump_text b = Some t -> exists buf d out, b = Some buf /\ Dump buf = DOk d /\ Write d = WOk out /\ forall f32 f64, flatten f32 f64 out = t.
Proof.
  unfold dump_text. destruct b as [b|]; [|done]. destruct (Dump b) as [d| | |] eqn:Ed; try done. destruct (Write d) as [o| |] eqn:Eo; try done.
  destruct (forallb is_text o) eqn:Et; [|done]. intros [= <-]. exists b, d, o. split_and!; auto. intros f32 f64. unfold flatten. f_equal. clear -Et.
  induction o as [|[x| |] o IH]; cbn in *; try done. by rewrite IH.
Qed.
Definition zd_text : list byte := get [] (dump_text (file_of zd_s wit_sc)).
Lemma zd_text_ok : dump_text (file_of zd_s wit_sc) = Some zd_text.
Proof. apply get_some. vm_cast_no_check (eq_refl true). Qed.

(** [x] occurs in [t]. *)
Fixpoint occursb (x t : list byte) : bool :=
  bool_decide (take (length x) t = x) || match t with [] => false | _ :: t' => occursb x t' end.
Lemma occursb_ok x p q : occursb x (p ++ x ++ q) = true.
Proof.
  induction p as [|b p IH]; cbn [app].
  - destruct (x ++ q) eqn:E; cbn [occursb]; rewrite <- E; rewrite bool_decide_true; auto; by rewrite take_app.
  - cbn [occursb]. rewrite IH. apply orb_true_r.
Qed.
Lemma zd_values : length (v_values (want_view (w_heap zd_s) zd_r)) = 2%nat /\
  forallb (fun v => match vv_inst v with Some _ => negb (occursb (inst_label v) zd_text) | None => false end) (v_values (want_view (w_heap zd_s) zd_r)) = true.
Proof. split; [vm_cast_no_check (eq_refl 2%nat)|vm_cast_no_check (eq_refl true)]. Qed.
