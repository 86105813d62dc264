(** C58: registering.
    Specification vocabulary (AddFacts.v, NewFacts.v): [free_metric r n], [free_indom r n]: no file is mapped for the registry and
    no metric (domain) of this name is registered; [with_domain_of hp m doms]: [doms] with the domain of [m], unless there
    is one of that name; [domain_for hp r n l has]: the domain [n] is registered and [l] lists its instances, or [n] and [l] are
    acceptable for a new one, and [has] are its instances; [acceptable], [described]: see C57. *)
From Verif Require Import Base BaseFacts Floats GoVal MetricType ByteWriter Hash Units Indom Metrics Registry Prog
  Client View RegInv World OpRuns RegFacts WorldInv MetricFacts VectorFacts RegSteps NewFacts AddFacts Utf8 Parse ParseFacts RegString Example Witness RegWitness.

(** [w'] is [w] with registry [rid] replaced by [r'] and with the objects of [hp']; nothing else has changed. *)
Definition only_registry (w : world) (rid : nat) (r' : registry) (hp' : heap) (w' : world) : Prop :=
  w_regs w' = <[rid := r']> (w_regs w) /\ w_heap w' = hp' /\ w_clients w' = w_clients w /\ w_files w' = w_files w /\ w_paths w' = w_paths w /\ w_offs w' = w_offs w /\ w_dead w' = w_dead w.

Theorem C58_add_metric w rid mp r m : reachable w -> w_dead w = false -> w_regs w !! rid = Some r -> h_metrics (w_heap w) !! mp = Some m ->
  (exists o w', wstep w (CAddMetric rid mp) o w') /\
  forall o w', wstep w (CAddMetric rid mp) o w' ->
    (o = ROk <-> free_metric r (md_name (m_desc m))) /\ (o = ROk \/ o = RErr) /\
    (o = ROk -> exists r', only_registry w rid r' (w_heap w) w' /\
       r_metrics r' = <[md_name (m_desc m) := mp]> (r_metrics r) /\ r_indoms r' = with_domain_of (w_heap w) m (r_indoms r)).
Proof.
  intros R Hdead Hr Hm. pose proof (reachable_ok _ R) as W.
  assert (forall ip, m_indom m = Some ip -> is_Some (h_indoms (w_heap w) !! ip)) as Hd.
  { intros ip E. pose proof (mo_body _ _ (ho_metrics _ (wo_heap _ W) _ _ Hm)) as B. unfold m_indom in E. destruct (m_body m) as [|ip' cells]; [done|]. injection E as ->. destruct B as (d & B & _). eauto. }
  pose proof (add_metric_iff (w_heap w) r mp m Hd) as HI. split.
  - destruct (add_metric (w_heap w) r mp m) as [o r'] eqn:E. exists o. eexists. by eapply ws_add_metric.
  - intros o w' S. inversion S; subst. assert (r0 = r) as -> by congruence. assert (m0 = m) as -> by congruence. match goal with A : add_metric _ _ _ _ = _ |- _ => rewrite A in HI; rename A into Ha end.
    cbn in HI. split; [exact HI|]. split; [destruct (reg_call_next _ rid _ _ _ _ W S eq_refl Hr) as (r1 & _ & N); exact (rn_o _ _ _ _ _ N)|]. intros ->. exists r'. unfold only_registry, set_regs. cbn. split; [split_and!; auto|].
    destruct (add_metric_effect _ _ _ _ _ Ha) as (? & ? & _). auto.
Qed.
Theorem C58_add_domain w rid ip r d : reachable w -> w_dead w = false -> w_regs w !! rid = Some r -> h_indoms (w_heap w) !! ip = Some d ->
  (exists o w', wstep w (CAddIndom rid ip) o w') /\
  forall o w', wstep w (CAddIndom rid ip) o w' ->
    (o = ROk <-> free_indom r (id_name d)) /\ (o = ROk \/ o = RErr) /\
    (o = ROk -> exists r', only_registry w rid r' (w_heap w) w' /\ r_metrics r' = r_metrics r /\ r_indoms r' = <[id_name d := ip]> (r_indoms r)).
Proof.
  intros R Hdead Hr Hm. pose proof (add_indom_iff r ip d) as HI. split; [eexists _, _; by eapply ws_add_indom|].
  intros o w' S. inversion S; subst. assert (r0 = r) as -> by congruence. assert (d0 = d) as -> by congruence. destruct (add_indom r ip d) as [r'|] eqn:E.
  - split; [split; [intros _; apply HI; eauto|done]|]. split; [auto|]. intros _. exists r'. unfold only_registry, set_regs. cbn. split; [split_and!; auto|].
    destruct (add_indom_effect _ _ _ _ E) as (? & ? & _). auto.
  - split; [split; [done|intros K; apply HI in K as [? ?]; done]|]. split; [auto|done].
Qed.
Theorem C58_add_domain_by_name w rid ip name insts r : reachable w -> w_dead w = false -> w_regs w !! rid = Some r -> h_indoms (w_heap w) !! ip = None ->
  (exists o w', wstep w (CAddIndomByName rid ip name insts) o w') /\
  forall o w', wstep w (CAddIndomByName rid ip name insts) o w' ->
    (o = ROk <-> free_indom r name /\ name <> [] /\ Forall (fun i => zlen i <= 256) insts) /\ (o = ROk \/ o = RErr) /\
    (o = ROk -> exists r' d, only_registry w rid r' (mkHeap (<[ip := d]> (h_indoms (w_heap w))) (h_metrics (w_heap w))) w' /\
       r_metrics r' = r_metrics r /\ r_indoms r' = <[name := ip]> (r_indoms r) /\
       id_name d = name /\ id_short d = [] /\ id_long d = [] /\ forall n, is_Some (id_insts d !! n) <-> n ∈ insts).
Proof.
  intros R Hdead Hr Hip. pose proof (reachable_ok _ R) as W. pose proof (add_by_name_iff (w_heap w) r ip name insts) as HI. split.
  - destruct (add_indom_by_name (w_heap w) r ip name insts) as [[o hp'] r'] eqn:E. exists o. eexists. by eapply ws_add_indom_by_name.
  - intros o w' S. inversion S; subst. assert (r0 = r) as -> by congruence. match goal with A : add_indom_by_name _ _ _ _ _ = _ |- _ => rewrite A in HI; rename A into Ha end. cbn in HI.
    split; [exact HI|]. split; [destruct (reg_call_next _ rid _ _ _ _ W S eq_refl Hr) as (r1 & _ & N); exact (rn_o _ _ _ _ _ N)|]. intros ->.
    destruct (add_by_name_effect _ _ _ _ _ _ _ Ha) as (d & En & -> & E1 & E2 & _). destruct (new_indom_spec _ _ _ _ En) as (N1 & N2 & N3). cbn in N2. injection N2 as N2 N4.
    exists r', d. unfold only_registry. cbn. split_and!; auto.
Qed.
(** AddMetricByString after the string has been taken apart (C28): without instances ... *)
Theorem C58_by_string_single w rid mp ip name dn val t s u r : reachable w -> w_dead w = false -> w_regs w !! rid = Some r ->
  h_metrics (w_heap w) !! mp = None -> h_indoms (w_heap w) !! ip = None -> wf_sarg val -> desc_args t s u ->
  (exists o w', wstep w (CAddByString rid mp ip name dn None val t s u) o w') /\
  forall o w', wstep w (CAddByString rid mp ip name dn None val t s u) o w' ->
    (o = ROk <-> free_metric r name /\ acceptable name [] /\ exists v, val = AVal v /\ IsCompatible t v = true) /\ (o = ROk \/ o = RErr) /\
    (o = ROk -> exists v m r', val = AVal v /\ only_registry w rid r' (mkHeap (h_indoms (w_heap w)) (<[mp := m]> (h_metrics (w_heap w)))) w' /\
       r_metrics r' = <[name := mp]> (r_metrics r) /\ r_indoms r' = r_indoms r /\
       described m name [] t s u /\ m_kind m = MSingleton /\ m_val m = Some (resolve t v) /\ no_closures m).
Proof.
  intros R Hdead Hr Hmp Hip Hw Hda. pose proof (reachable_ok _ R) as W. pose proof (add_single_iff (w_heap w) r mp name val t s u) as HI. split.
  - destruct (add_singleton_by_string (w_heap w) r mp name val t s u) as [[o hp'] r'] eqn:E. exists o. eexists. eapply (ws_add_by_string _ _ _ _ _ _ _ _ _ _ _ []); eauto. done.
  - intros o w' S. inversion S; subst. assert (r0 = r) as -> by congruence. match goal with A : add_by_string _ _ _ _ _ _ _ _ _ _ _ _ = _ |- _ => cbn in A; rewrite A in HI; rename A into Ha end. cbn in HI.
    split; [exact HI|]. split; [destruct (reg_call_next _ rid _ _ _ _ W S eq_refl Hr) as (r1 & _ & N); exact (rn_o _ _ _ _ _ N)|]. intros ->.
    destruct (add_single_effect _ _ _ _ _ _ _ _ _ _ Ha) as (v & m & -> & D & K & V & C & -> & E1 & E2). exists v, m, r'. unfold only_registry. cbn. split_and!; auto; done.
Qed.
(** ... and with instances. *)
Theorem C58_by_string_instances w rid mp ip name dn l val t s u r : reachable w -> w_dead w = false -> w_regs w !! rid = Some r ->
  h_metrics (w_heap w) !! mp = None -> h_indoms (w_heap w) !! ip = None -> wf_sarg val -> desc_args t s u ->
  (exists o w', wstep w (CAddByString rid mp ip name dn (Some l) val t s u) o w') /\
  forall o w', wstep w (CAddByString rid mp ip name dn (Some l) val t s u) o w' ->
    (o = ROk <-> free_metric r name /\ acceptable name [] /\ exists vals, val = AInst vals /\ (forall i v, vals !! i = Some v -> IsCompatible t v = true) /\
       domain_for (w_heap w) r dn l (fun n => is_Some (vals !! n))) /\ (o = ROk \/ o = RErr) /\
    (o = ROk -> exists vals m ip' d r' hp', val = AInst vals /\ only_registry w rid r' hp' w' /\
       h_metrics hp' = <[mp := m]> (h_metrics (w_heap w)) /\ h_indoms hp' !! ip' = Some d /\ r_metrics r' = <[name := mp]> (r_metrics r) /\
       described m name [] t s u /\ m_kind m = MInstance /\ m_indom m = Some ip' /\ (forall i, val_at m (Some i) = resolve t <$> vals !! i) /\ no_closures m /\
       (forall n, is_Some (id_insts d !! n) <-> is_Some (vals !! n)) /\
       match r_indoms r !! dn with
       | Some x => ip' = x /\ h_indoms hp' = h_indoms (w_heap w) /\ r_indoms r' = r_indoms r
       | None => ip' = ip /\ h_indoms hp' = <[ip := d]> (h_indoms (w_heap w)) /\ r_indoms r' = <[dn := ip]> (r_indoms r) /\ id_name d = dn /\ id_short d = [] /\ id_long d = []
       end).
Proof.
  intros R Hdead Hr Hmp Hip Hw Hda. pose proof (reachable_ok _ R) as W. split.
  - assert (exists ord, by_string_ord (w_heap w) r dn (Some l) ord) as [ord Ho].
    { cbn. destruct (r_indoms r !! dn) as [ip0|].
      - destruct (h_indoms (w_heap w) !! ip0) as [d|]; [exists (map_to_list (id_insts d)).*1; by intros ? [= <-]|by exists []].
      - destruct (new_indom dn l []) as [d|]; [exists (map_to_list (id_insts d)).*1; by intros ? [= <-]|by exists []]. }
    destruct (add_by_string (w_heap w) r mp ip name dn (Some l) val t s u ord) as [[o hp'] r'] eqn:E. exists o. eexists. by eapply ws_add_by_string.
  - intros o w' S. inversion S; subst. assert (r0 = r) as -> by congruence. match goal with A : add_by_string _ _ _ _ _ _ _ _ _ _ _ _ = _ |- _ => cbn in A; rename A into Ha end.
    match goal with A : by_string_ord _ _ _ _ _ |- _ => rename A into Ho end.
    pose proof (add_instance_iff (w_heap w) r mp ip name val dn l t s u ord (wo_regs _ W _ _ Hr) Ho) as HI. rewrite Ha in HI. cbn in HI.
    split; [exact HI|]. split; [destruct (reg_call_next _ rid _ _ _ _ W S eq_refl Hr) as (r1 & _ & N); exact (rn_o _ _ _ _ _ N)|]. intros ->.
    destruct (add_instance_effect _ _ _ _ _ _ _ _ _ _ _ _ _ _ (wo_regs _ W _ _ Hr) Ho Ha) as (vals & m & ip' & d & H1 & H2 & H3 & H4 & H5 & H6 & H7 & H8 & H9 & H10 & H11).
    exists vals, m, ip', d, r', hp'. unfold only_registry. cbn. split; [exact H1|]. split; [split_and!; auto|]. tauto.
Qed.

(** From the string on: a call succeeds exactly if the string is in the grammar (C28), the metric it names is free, and the value fits
    what it asks for. [ord] is the order in which Go's map of instances is visited. *)
Theorem C58_by_string isLN w rid r mp ip str0 val t s u ord : delims_ok isLN -> reachable w -> w_regs w !! rid = Some r ->
  (forall n d i, parses isLN str0 n d i -> by_string_ord (w_heap w) r d i ord) ->
  (AddMetricByString isLN (w_heap w) r mp ip str0 val t s u ord).1.1 = ROk <->
  exists name d i, parses isLN str0 name d i /\ free_metric r name /\ acceptable name [] /\
    match i with
    | None => exists v, val = AVal v /\ IsCompatible t v = true
    | Some l => exists vals, val = AInst vals /\ (forall i v, vals !! i = Some v -> IsCompatible t v = true) /\
        domain_for (w_heap w) r d l (fun n => is_Some (vals !! n))
    end.
Proof.
  intros HD R Hr Ho. pose proof (reachable_ok _ R) as W. unfold AddMetricByString.
  assert (forall n d i, parse_string isLN str0 = Some (n, d, i) <-> parses isLN str0 n d i) as HP by (intros; by apply parse_iff).
  destruct (parse_string isLN str0) as [[[n d] i]|].
  - pose proof (proj1 (HP n d i) eq_refl) as P. specialize (Ho _ _ _ P).
    transitivity (free_metric r n /\ acceptable n [] /\ match i with
      | None => exists v, val = AVal v /\ IsCompatible t v = true
      | Some l => exists vals, val = AInst vals /\ (forall i v, vals !! i = Some v -> IsCompatible t v = true) /\ domain_for (w_heap w) r d l (fun n => is_Some (vals !! n)) end).
    + destruct i as [l|]; cbn; [by apply add_instance_iff; [exact (wo_regs _ W _ _ Hr)|]|by apply add_single_iff].
    + split; [intros H; exists n, d, i; auto|]. intros (n' & d' & i' & P' & H). apply HP in P'. by injection P' as -> -> ->.
  - cbn. split; [done|]. intros (n & d & i & P & _). by apply HP in P.
Qed.

(** A process with two registered counters: a second registration of one of them, a new metric, a new domain by name, a
    string without and one with instances. *)
Example C58_ex : reachable wit_c /\ w_dead wit_c = false /\ w_regs wit_c !! 0%nat = Some wit_cr /\ h_metrics (w_heap wit_c) !! 1%nat = Some (wit_cnt (str "net.out")) /\
  ~ free_metric wit_cr (md_name (m_desc (wit_cnt (str "net.out")))) /\ free_metric wit_cr (str "new.metric") /\ free_indom wit_cr (str "disks") /\ acceptable (str "new.metric") [] /\
  IsCompatible Int64Type (VInt 5) = true /\ h_metrics (w_heap wit_c) !! 77%nat = None /\ h_indoms (w_heap wit_c) !! 77%nat = None /\
  domain_for (w_heap wit_c) wit_cr (str "disks") [str "sda"; str "sdb"] (fun n => is_Some (({[str "sda" := VInt 1; str "sdb" := VInt 2]} : gmap gostring goval) !! n)).
Proof.
  split; [exact wit_c_reachable|]. split; [vm_compute; reflexivity|]. split; [exact wit_cr_eq|]. split; [vm_compute; reflexivity|].
  split; [unfold free_metric; vm_compute; intros [_ K]; discriminate K|]. split; [split; vm_compute; reflexivity|]. split; [split; vm_compute; reflexivity|].
  split; [unfold acceptable, zlen; vm_compute; intuition (try discriminate; try lia)|]. split; [reflexivity|]. split; [vm_compute; reflexivity|].
  split; [vm_compute; reflexivity|]. right. split; [vm_compute; reflexivity|]. split; [intros K; vm_compute in K; discriminate K|]. split; [repeat constructor; vm_compute; discriminate|].
  intros n. rewrite lookup_insert_is_Some, elem_of_cons, elem_of_list_singleton. split.
  - intros [<-|[_ [v K]]]; [by left|]. apply lookup_singleton_Some in K as [<- _]. by right.
  - intros [->| ->]; [by left|]. right. split; [intros K; vm_compute in K; discriminate K|]. rewrite lookup_singleton. eauto.
Qed.

(** The same from a string: a new metric in a new domain, and with values that do not match the listed instances. *)
Example C58_ex_string : let vals := ({[str "sda" := VInt 1; str "sdb" := VInt 2]} : gmap gostring goval) in
  let add v := (AddMetricByString asciiLN (w_heap wit_c) wit_cr 77 77 (str "disks[sda,sdb].io") (AInst v) Int64Type CounterSemantics OneUnit [str "sda"; str "sdb"]).1.1 in
  delims_ok asciiLN /\ parses asciiLN (str "disks[sda,sdb].io") (str "disks.io") (str "disks") (Some [str "sda"; str "sdb"]) /\
  add vals = ROk /\ add {[str "sda" := VInt 1]} = RErr /\ add {[str "sda" := VInt 1; str "sdb" := VStr []]} = RErr.
Proof.
  cbn zeta. assert (delims_ok asciiLN) as D by (intros c H; repeat (apply elem_of_cons in H as [->|H]; [reflexivity|]); by apply elem_of_nil in H). split; [exact D|]. split; [apply parse_iff; [exact D|]; vm_compute; reflexivity|].
  split; [vm_compute; reflexivity|]. split; vm_compute; reflexivity.
Qed.

Print Assumptions C58_add_metric.
Print Assumptions C58_add_domain.
Print Assumptions C58_add_domain_by_name.
Print Assumptions C58_by_string_single.
Print Assumptions C58_by_string_instances.
Print Assumptions C58_by_string.
