(** What each API call does to the registries. *)
From Verif Require Import Base BaseFacts Floats GoVal MetricType ByteWriter Hash Units Indom Metrics Registry Prog
  Client Mmvdump Ileave ProgProofs Events StartEvents BufFacts Tiling StartGood StartLayout StartFinal StartDone
  View Sections StartView RegInv Update World OpRuns RegFacts WorldInv Sync FloatFacts ValueFacts MetricFacts SyncLive StartLive SyncView Life.

(** ** Specification *)
(** The calls that register something in registry [rid]. *)
Definition registers (rid : nat) (cl : call) : Prop :=
  match cl with
  | CAddMetric r _ | CAddIndom r _ | CAddIndomByName r _ _ _ | CAddByString r _ _ _ _ _ _ _ _ _ => r = rid
  | _ => False
  end.
(** The calls that stop some client of registry [rid]. *)
Definition stops (w : world) (rid : nat) (cl : call) : Prop :=
  match cl with CStop cid _ _ => exists c, w_clients w !! cid = Some c /\ cl_reg c = rid | _ => False end.

(** ** Steps *)
Lemma reg_call_next w rid cl o w' r : w_ok w -> wstep w cl o w' -> registers rid cl -> w_regs w !! rid = Some r ->
  exists r', w_regs w' = <[rid := r']> (w_regs w) /\ reg_next (w_heap w) r o (w_heap w') r'.
Proof.
  intros W H HR Hr. pose proof (wo_heap _ W) as Hh. pose proof (wo_regs _ W _ _ Hr) as Hro.
  destruct H as [w rid' Hd Hr0|w cid' name loc rid' Hd Hc0 Hr0|w ip name insts desc d Hd Hip Hn|w mp ip m new Hd Hmp Hip Hcr|w rid' mp r0 m o r' Hd Hr0 Hm Ha
    |w rid' ip r0 d Hd Hr0 Hip|w rid' ip name insts r0 o hp' r' Hd Hr0 Hip Ha|w rid' mp ip name indom insts val t s u ord r0 o hp' r' Hd Hr0 Hmp Hip Hv Hda Hord Ha
    |w cid' flag c0 r0 Hd Hc0 Hr0|w cid' gen' pid' c0 r0 wr' ino' s Hd Hc0 Hr0 Hwr0 Hino Hs|w cid' gen' pid' c0 r0 ino' s Hd Hc0 Hr0 Hino Hs|w cid' gen' pid' c0 r0 paths inodes Hd Hc0 Hr0 Hs
    |w cid' erase os c0 r0 Hd Hc0 Hr0 Hm|w cid' erase c0 r0 o w' Hd Hc0 Hr0 Hm Hs|w cid' erase c0 r0 wr' fs' Hd Hc0 Hr0 Hm Hwr0 Hfs|w mp op mst m o fs' m' Hd Hm Ha Hu];
    cbn [registers] in HR; try contradiction; subst rid'; assert (r0 = r) as -> by congruence.
  - exists r'. split; [reflexivity|]. cbn. by eapply add_metric_next.
  - destruct (add_indom r ip d) as [r'|] eqn:E; cbn.
    + exists r'. split; [reflexivity|]. by eapply add_indom_next.
    + exists r. split; [by rewrite insert_id|]. by apply reg_next_refl.
  - exists r'. split; [reflexivity|]. cbn. by apply (add_indom_by_name_next _ _ _ _ _ _ _ _ Hh Hro Hip Ha).
  - exists r'. split; [reflexivity|]. cbn. by eapply add_by_string_next.
Qed.

Lemma other_call_regs w rid cl o w' r : wstep w cl o w' -> ~ registers rid cl -> w_regs w !! rid = Some r ->
  exists r', w_regs w' !! rid = Some r' /\ (r' = r \/ (r' = set_mapped r true) \/ (r' = set_mapped r false /\ stops w rid cl)).
Proof.
  intros H HR Hr.
  destruct H as [w rid' Hd Hr0|w cid' name loc rid' Hd Hc0 Hr0|w ip name insts desc d Hd Hip Hn|w mp ip m new Hd Hmp Hip Hcr|w rid' mp r0 m o r' Hd Hr0 Hm Ha
    |w rid' ip r0 d Hd Hr0 Hip|w rid' ip name insts r0 o hp' r' Hd Hr0 Hip Ha|w rid' mp ip name indom insts val t s u ord r0 o hp' r' Hd Hr0 Hmp Hip Hv Hda Hord Ha
    |w cid' flag c0 r0 Hd Hc0 Hr0|w cid' gen' pid' c0 r0 wr' ino' s Hd Hc0 Hr0 Hwr0 Hino Hs|w cid' gen' pid' c0 r0 ino' s Hd Hc0 Hr0 Hino Hs|w cid' gen' pid' c0 r0 paths inodes Hd Hc0 Hr0 Hs
    |w cid' erase os c0 r0 Hd Hc0 Hr0 Hm|w cid' erase c0 r0 o w' Hd Hc0 Hr0 Hm Hs|w cid' erase c0 r0 wr' fs' Hd Hc0 Hr0 Hm Hwr0 Hfs|w mp op mst m o fs' m' Hd Hm Ha Hu];
    cbn [w_regs set_regs started registers] in *; try (exists r; auto; fail).
  - exists r. rewrite lookup_insert_ne by congruence. auto.
  - exists r. rewrite lookup_insert_ne by auto. auto.
  - exists r. destruct (add_indom r0 ip d); [rewrite lookup_insert_ne by auto|]; auto.
  - exists r. rewrite lookup_insert_ne by auto. auto.
  - exists r. rewrite lookup_insert_ne by auto. auto.
  - destruct (decide (cl_reg c0 = rid)) as [E|N]; [|exists r; rewrite lookup_insert_ne by exact N; auto].
    subst rid. assert (r0 = r) as -> by congruence. exists (set_mapped r true). rewrite lookup_insert. auto.
  - assert (w_regs w' = <[cl_reg c0 := set_mapped r0 false]> (w_regs w)) as ->.
    { unfold stopped in Hs. destruct (cl_wr c0); [destruct erase|]; simplify_eq; reflexivity. }
    destruct (decide (cl_reg c0 = rid)) as [E|N]; [|exists r; rewrite lookup_insert_ne by exact N; auto].
    subst rid. assert (r0 = r) as -> by congruence. exists (set_mapped r false). rewrite lookup_insert. split; [reflexivity|].
    right; right. split; [reflexivity|]. exists c0. auto.
  - destruct (decide (cl_reg c0 = rid)) as [E|N]; [|exists r; rewrite lookup_insert_ne by exact N; auto].
    subst rid. assert (r0 = r) as -> by congruence. exists (set_mapped r false). rewrite lookup_insert. split; [reflexivity|].
    right; right. split; [reflexivity|]. exists c0. auto.
Qed.

Lemma registers_dec rid cl : registers rid cl \/ ~ registers rid cl.
Proof. destruct cl; cbn; try tauto; destruct (Nat.eq_dec rid0 rid); tauto. Qed.

(** Nothing is ever removed from a registry. *)
Lemma step_keeps w rid cl o w' r : w_ok w -> wstep w cl o w' -> w_regs w !! rid = Some r ->
  exists r', w_regs w' !! rid = Some r' /\ r_metrics r ⊆ r_metrics r' /\ r_indoms r ⊆ r_indoms r'.
Proof.
  intros W H Hr. destruct (registers_dec rid cl) as [HR|HR].
  - destruct (reg_call_next _ _ _ _ _ _ W H HR Hr) as (r' & E & N). exists r'. rewrite E, lookup_insert. split; [done|]. apply N.
  - destruct (other_call_regs _ _ _ _ _ _ H HR Hr) as (r' & E & [->|[->|[-> _]]]); eexists; (split; [exact E|split; reflexivity]).
Qed.
Lemma hist_keeps w tr w' rid r : w_ok w -> hist w tr w' -> w_regs w !! rid = Some r ->
  exists r', w_regs w' !! rid = Some r' /\ r_metrics r ⊆ r_metrics r' /\ r_indoms r ⊆ r_indoms r'.
Proof.
  intros W H. revert r. induction H as [w|w c o w1 tr w' S H IH]; intros r Hr; [exists r; auto|].
  destruct (step_keeps _ _ _ _ _ _ W S Hr) as (r1 & E1 & A1 & A2). destruct (IH (wstep_ok _ _ _ _ W S) _ E1) as (r2 & E2 & B1 & B2).
  exists r2. split; [done|]. split; by etransitivity.
Qed.

(** A mapped registry stays as it is until some client of it is stopped. *)
Lemma mapped_step w rid cl o w' r : w_ok w -> wstep w cl o w' -> w_regs w !! rid = Some r -> r_mapped r = true -> ~ stops w rid cl ->
  w_regs w' !! rid = Some r /\ (registers rid cl -> o = RErr).
Proof.
  intros W H Hr Hm Hs. destruct (registers_dec rid cl) as [HR|HR].
  - destruct (reg_call_next _ _ _ _ _ _ W H HR Hr) as (r' & E & N). rewrite E, lookup_insert. destruct (rn_frozen _ _ _ _ _ N Hm) as [-> No].
    split; [done|]. intros _. destruct (rn_o _ _ _ _ _ N); tauto.
  - destruct (other_call_regs _ _ _ _ _ _ H HR Hr) as (r' & E & [->|[->|[-> F]]]); [| |by destruct Hs].
    + split; [exact E|]. tauto.
    + split; [|tauto]. rewrite E. f_equal. destruct r; unfold set_mapped; cbn in *. by rewrite Hm.
Qed.
Lemma mapped_hist w tr w' rid r : w_ok w -> phist (fun w cl => ~ stops w rid cl) w tr w' -> w_regs w !! rid = Some r -> r_mapped r = true ->
  w_regs w' !! rid = Some r /\ Forall (fun x => registers rid x.1.2 -> x.2 = RErr) tr.
Proof.
  intros W H. induction H as [w|w cl o w1 tr w' P S H IH]; intros Hr Hm; [auto|].
  destruct (mapped_step _ _ _ _ _ _ W S Hr Hm P) as [A1 A2]. destruct (IH (wstep_ok _ _ _ _ W S) A1 Hm) as [B1 B2]. split; [exact B1|].
  constructor; [exact A2|exact B2].
Qed.

(** ** Failing registrations *)
Lemma by_string_err hp r mp ip name indom insts val t s u ord o hp' r' : heap_ok hp -> reg_ok hp r ->
  h_metrics hp !! mp = None -> h_indoms hp !! ip = None -> by_string_ord hp r indom insts ord -> wf_sarg val -> desc_args t s u ->
  add_by_string hp r mp ip name indom insts val t s u ord = (o, hp', r') -> o <> ROk ->
  r' = r \/ exists d, r_indoms r !! indom = None /\ id_name d = indom /\ add_indom r ip d = Some r'.
Proof.
  intros Hh Hr Hn Hip Hord Hw Hda H Ho. revert H. unfold add_by_string. destruct insts as [l|].
  - unfold add_instance_by_string. destruct val as [v|vals]; [intros; simplify_eq; auto|].
    assert (forall hp1 r1 ip1, add_instance_with hp1 r1 mp ip1 name vals t s u ord = (o, hp', r') -> r' = r1) as F.
    { intros hp1 r1 ip1. unfold add_instance_with. destruct (h_indoms hp1 !! ip1); [|intros; by simplify_eq].
      destruct (NewPCPInstanceMetric _ _ _ _ _ _ _ _ _) as [m|]; [|intros; by simplify_eq].
      unfold add_metric. repeat case_match; intros; simplify_eq; try done. }
    destruct (r_indoms r !! indom) as [ip'|] eqn:Ei.
    + destruct (h_indoms hp !! ip'); [|intros; simplify_eq; auto]. destruct (match_instances _ _); [|intros; simplify_eq; auto].
      intros H. left. by eapply F.
    + unfold add_indom_by_name. destruct (HasInstanceDomain r indom); [intros; simplify_eq; auto|].
      destruct (new_indom indom l []) as [d|] eqn:Ed; [|intros; simplify_eq; auto].
      destruct (add_indom r ip d) as [r1|] eqn:Ea; [|intros; simplify_eq; auto].
      intros H. apply F in H as ->. right. exists d. split; [done|]. split; [|done]. by apply new_indom_ok in Ed as (_ & ? & _).
  - unfold add_singleton_by_string. destruct (NewPCPSingletonMetric _ _ _ _ _ _) as [m|] eqn:Em; [|intros; simplify_eq; auto].
    unfold add_metric. repeat case_match; intros; simplify_eq; auto.
Qed.

Lemma object_err w rid cl o w' r : w_ok w -> wstep w cl o w' -> w_regs w !! rid = Some r -> registers rid cl -> o <> ROk ->
  (forall r mp ip name indom insts val t s u, cl <> CAddByString r mp ip name indom insts val t s u) -> w_regs w' = w_regs w.
Proof.
  intros W H Hr HR Ho Hcl. pose proof (wo_heap _ W) as Hh. pose proof (wo_regs _ W _ _ Hr) as Hro.
  destruct H as [w rid' Hd Hr0|w cid' name loc rid' Hd Hc0 Hr0|w ip name insts desc d Hd Hip Hn|w mp ip m new Hd Hmp Hip Hcr|w rid' mp r0 m o r' Hd Hr0 Hm Ha
    |w rid' ip r0 d Hd Hr0 Hip|w rid' ip name insts r0 o hp' r' Hd Hr0 Hip Ha|w rid' mp ip name indom insts val t s u ord r0 o hp' r' Hd Hr0 Hmp Hip Hv Hda Hord Ha
    |w cid' flag c0 r0 Hd Hc0 Hr0|w cid' gen' pid' c0 r0 wr' ino' s Hd Hc0 Hr0 Hwr0 Hino Hs|w cid' gen' pid' c0 r0 ino' s Hd Hc0 Hr0 Hino Hs|w cid' gen' pid' c0 r0 paths inodes Hd Hc0 Hr0 Hs
    |w cid' erase os c0 r0 Hd Hc0 Hr0 Hm|w cid' erase c0 r0 o w' Hd Hc0 Hr0 Hm Hs|w cid' erase c0 r0 wr' fs' Hd Hc0 Hr0 Hm Hwr0 Hfs|w mp op mst m o fs' m' Hd Hm Ha Hu];
    cbn [registers] in HR; try contradiction; subst rid'; assert (r0 = r) as -> by congruence.
  - cbn. destruct (add_metric_ok _ _ _ _ _ _ Hro (ho_metrics _ Hh _ _ Hm) Hm Ha) as (_ & _ & [[_ ->]|[-> _]]); [by rewrite insert_id|done].
  - cbn. destruct (add_indom r ip d); done.
  - cbn. unfold add_indom_by_name in Ha. repeat case_match; simplify_eq; by rewrite insert_id.
  - exfalso. by eapply Hcl.
Qed.

(** ** Registered metrics and the domain object they use *)
Definition linked (hp : heap) (r : registry) (m : metric) : Prop :=
  forall ip d, m_indom m = Some ip -> h_indoms hp !! ip = Some d -> r_indoms r !! id_name d = Some ip.
Definition all_linked (hp : heap) (r : registry) : Prop :=
  forall n mp m, r_metrics r !! n = Some mp -> h_metrics hp !! mp = Some m -> linked hp r m.

(** AddMetric is given a metric whose domain is the one registered under that name, if any is. *)
Definition links_ok (w : world) (cl : call) : Prop :=
  match cl with
  | CAddMetric rid mp => forall r m ip d ip', w_regs w !! rid = Some r -> h_metrics (w_heap w) !! mp = Some m -> m_indom m = Some ip ->
      h_indoms (w_heap w) !! ip = Some d -> r_indoms r !! id_name d = Some ip' -> ip' = ip
  | _ => True
  end.

Lemma linked_ext hp hp' r r' m m' : heap_ok hp -> heap_ext hp hp' -> metric_ok hp m -> m_indom m' = m_indom m -> r_indoms r ⊆ r_indoms r' ->
  linked hp r m -> linked hp' r' m'.
Proof.
  intros Hh He Hm E Hs L ip d Hip Hd. rewrite E in Hip. pose proof (mo_body _ _ Hm) as HB. unfold m_indom in Hip.
  destruct (m_body m) as [c|ip0 cells] eqn:Eb; [discriminate|]. simplify_eq. destruct HB as (d0 & Hd0 & _).
  assert (d0 = d) as -> by (pose proof (he_i _ _ He _ _ Hd0); congruence).
  eapply lookup_weaken; [|exact Hs]. eapply L; [|exact Hd0]. unfold m_indom. by rewrite Eb.
Qed.
Lemma all_linked_ext hp hp' r r' : heap_ok hp -> heap_ext hp hp' -> reg_ok hp r -> r_metrics r' = r_metrics r -> r_indoms r ⊆ r_indoms r' ->
  all_linked hp r -> all_linked hp' r'.
Proof.
  intros Hh He Hr Em Hs L n mp m' Hn Hm'. rewrite Em in Hn. destruct (ro_metrics _ _ Hr _ _ Hn) as (m & Hm & _).
  destruct (he_m _ _ He _ _ Hm) as (m2 & A1 & _ & A2). assert (m2 = m') as -> by congruence.
  eapply linked_ext; [exact Hh|exact He|by eapply ho_metrics|exact A2|exact Hs|]. by eapply L.
Qed.

Lemma add_metric_linked hp r mp m o r' : heap_ok hp -> reg_ok hp r -> h_metrics hp !! mp = Some m -> add_metric hp r mp m = (o, r') ->
  (forall ip d ip', m_indom m = Some ip -> h_indoms hp !! ip = Some d -> r_indoms r !! id_name d = Some ip' -> ip' = ip) ->
  all_linked hp r -> all_linked hp r'.
Proof.
  intros Hh Hr Hm Ha Hl L. pose proof (add_metric_doms _ _ _ _ _ _ Ha) as HD.
  destruct (add_metric_ok _ _ _ _ _ _ Hr (ho_metrics _ Hh _ _ Hm) Hm Ha) as (_ & _ & [[_ ->]|(-> & A1 & A2 & A3)]); [done|].
  intros n mp' m' Hn Hm'. rewrite A3 in Hn. apply lookup_insert_Some in Hn as [[<- <-]|[_ Hn]].
  - assert (m' = m) as -> by congruence. intros ip d Hip Hd. revert Ha. unfold add_metric.
    rewrite A1. destruct (HasMetric r _); [discriminate|]. rewrite Hip, Hd. destruct (HasInstanceDomain r (id_name d)) eqn:Ei.
    + intros H. simplify_eq. unfold HasInstanceDomain in Ei. apply bool_decide_eq_true in Ei as [ip' Ei]. cbn. rewrite Ei. f_equal. by eapply Hl.
    + unfold add_indom. rewrite Ei, A1. intros H. simplify_eq. cbn. apply lookup_insert.
  - eapply linked_ext; [exact Hh|apply heap_ext_refl|by eapply ho_metrics|reflexivity|exact HD|]. by eapply L.
Qed.

Lemma by_string_linked hp r mp ip name indom insts val t s u ord o hp' r' : heap_ok hp -> reg_ok hp r ->
  h_metrics hp !! mp = None -> h_indoms hp !! ip = None -> wf_sarg val -> desc_args t s u -> by_string_ord hp r indom insts ord ->
  add_by_string hp r mp ip name indom insts val t s u ord = (o, hp', r') -> all_linked hp r -> all_linked hp' r'.
Proof.
  intros Hh Hr Hn Hip Hw Hda Hord H L. pose proof (add_by_string_next _ _ _ _ _ _ _ _ _ _ _ _ _ _ _ Hh Hr Hn Hip Hw Hda Hord H) as N.
  revert H. unfold add_by_string. destruct insts as [l|].
  - unfold add_instance_by_string. destruct val as [v|vals]; [intros; by simplify_eq|]. cbn [by_string_ord] in Hord. cbn in Hw.
    assert (forall hp1 r1 ip1 d, heap_ok hp1 -> reg_ok hp1 r1 -> h_metrics hp1 !! mp = None -> h_indoms hp1 !! ip1 = Some d ->
       r_indoms r1 !! id_name d = Some ip1 -> ord ≡ₚ (map_to_list (id_insts d)).*1 -> all_linked hp1 r1 ->
       add_instance_with hp1 r1 mp ip1 name vals t s u ord = (o, hp', r') -> all_linked hp' r') as F.
    { intros hp1 r1 ip1 d Hh1 Hr1 Hn1 Hd1 Hl1 Hord1 L1 E.
      pose proof (add_instance_with_next _ _ _ _ _ _ _ _ _ _ _ _ _ _ Hh1 Hr1 Hn1 Hd1 Hord1 Hda Hw E) as N1. revert E.
      unfold add_instance_with. rewrite Hd1.
      destruct (NewPCPInstanceMetric _ _ _ _ _ _ _ _ _) as [m|] eqn:Em; [|intros; by simplify_eq].
      assert (m_indom m = Some ip1) as Hmi.
      { unfold NewPCPInstanceMetric, new_inst_body in Em. repeat case_match; try discriminate; injection Em as <-; reflexivity. }
      destruct (add_metric hp1 r1 mp m) as [o1 r1'] eqn:Ea. destruct o1; intros H.
      2-4: assert (r' = r1 /\ hp' = hp1) as [-> ->]; [|exact L1]; revert Ea H; unfold add_metric; repeat case_match; intros; simplify_eq; done.
      injection H as <- <- <-.
      set (hp2 := mkHeap (h_indoms hp1) (<[mp := m]> (h_metrics hp1))) in *.
      assert (add_metric hp2 r1 mp m = (ROk, r1')) as Ea2 by (rewrite <- Ea; apply add_metric_heap; reflexivity).
      eapply add_metric_linked; [exact (rn_heap _ _ _ _ _ N1)|..|exact Ea2| |].
      - eapply reg_ok_ext; [exact Hh1|by apply heap_ext_metric|exact Hr1].
      - apply lookup_insert.
      - intros ip2 d2 ip' A1 A2 A3. cbn in A2. simplify_eq. congruence.
      - eapply all_linked_ext; [exact Hh1|by apply heap_ext_metric|exact Hr1|done|done|exact L1]. }
    destruct (r_indoms r !! indom) as [ip'|] eqn:Ei.
    + destruct (ro_indoms _ _ Hr _ _ Ei) as (d & Hd & Hnm). rewrite Hd. destruct (match_instances _ _); [|intros; by simplify_eq].
      intros H. eapply F; [exact Hh|exact Hr|exact Hn|exact Hd|by rewrite Hnm|by apply Hord|exact L|exact H].
    + destruct (add_indom_by_name hp r ip indom l) as [[o1 hp1] r1] eqn:E1.
      destruct (add_indom_by_name_next _ _ _ _ _ _ _ _ Hh Hr Hip E1) as (N1 & K1 & K2).
      assert (all_linked hp1 r1) as L1.
      { eapply all_linked_ext; [exact Hh|exact (rn_ext _ _ _ _ _ N1)|exact Hr| |apply (rn_keep _ _ _ _ _ N1)|exact L].
        revert E1. unfold add_indom_by_name, add_indom. repeat case_match; intros; by simplify_eq. }
      destruct o1; try (intros; simplify_eq; exact L1). intros H. destruct (K2 eq_refl) as (d & D1 & D2 & D3).
      eapply F; [exact (rn_heap _ _ _ _ _ N1)|exact (rn_reg _ _ _ _ _ N1)|rewrite K1; exact Hn|exact D2| |by apply Hord|exact L1|exact H].
      revert E1. unfold add_indom_by_name, add_indom. rewrite D1. repeat case_match; intros; simplify_eq. cbn. apply lookup_insert.
  - unfold add_singleton_by_string. destruct (NewPCPSingletonMetric _ _ _ _ _ _) as [m|] eqn:Em; [|intros; by simplify_eq].
    assert (m_indom m = None) as Hmi.
    { unfold NewPCPSingletonMetric, new_single in Em. repeat case_match; try discriminate; injection Em as <-; reflexivity. }
    destruct (add_metric hp r mp m) as [o1 r1'] eqn:Ea. destruct o1; intros H.
    2-4: assert (r' = r /\ hp' = hp) as [-> ->]; [|exact L]; revert Ea H; unfold add_metric; rewrite Hmi; repeat case_match; intros; simplify_eq; done.
    injection H as <- <- <-. set (hp2 := mkHeap (h_indoms hp) (<[mp := m]> (h_metrics hp))) in *.
    assert (add_metric hp2 r mp m = (ROk, r1')) as Ea2 by (rewrite <- Ea; apply add_metric_heap; reflexivity).
    eapply add_metric_linked; [exact (rn_heap _ _ _ _ _ N)|..|exact Ea2| |].
    + eapply reg_ok_ext; [exact Hh|by apply heap_ext_metric|exact Hr].
    + apply lookup_insert.
    + intros ip2 d2 ip' A1. congruence.
    + eapply all_linked_ext; [exact Hh|by apply heap_ext_metric|exact Hr|done|done|exact L].
Qed.

Lemma step_heap_ext w cl o w' : w_ok w -> wstep w cl o w' -> heap_ext (w_heap w) (w_heap w').
Proof.
  intros W H. destruct H as [w rid Hd Hr|w cid name loc rid Hd Hc Hr|w ip name insts desc d Hd Hip Hn|w mp ip m new Hd Hmp Hip Hcr|w rid mp r m o r' Hd Hr Hm Ha
    |w rid ip r d Hd Hr Hip|w rid ip name insts r o hp' r' Hd Hr Hip Ha|w rid mp ip name indom insts val t s u ord r o hp' r' Hd Hr Hmp Hip Hv Hda Hord Ha
    |w cid flag c r Hd Hc Hr|w cid gen pid c r wr ino s Hd Hc Hr Hwr Hino Hs|w cid gen pid c r ino s Hd Hc Hr Hino Hs|w cid gen pid c r paths inodes Hd Hc Hr Hs
    |w cid erase os c r Hd Hc Hr Hm|w cid erase c r o w' Hd Hc Hr Hm Hs|w cid erase c r wr fs' Hd Hc Hr Hm Hwr Hfs|w mp op mst m o fs' m' Hd Hm Ha Hu];
    cbn [w_heap set_regs started]; try apply heap_ext_refl.
  - by apply heap_ext_indom.
  - destruct (created_ok _ _ _ _ (wo_heap _ W) Hip Hcr) as (C1 & C2 & C3 & C4). set (hp1 := mkHeap _ (h_metrics (w_heap w))) in *.
    eapply heap_ext_trans; [exact C4|]. apply (heap_ext_metric hp1 mp m). exact Hmp.
  - eapply rn_ext, add_indom_by_name_next; [apply W|eapply wo_regs; eauto|exact Hip|exact Ha].
  - eapply rn_ext, add_by_string_next; [apply W|eapply wo_regs; eauto|exact Hmp|exact Hip|exact Hv|exact Hda|exact Hord|exact Ha].
  - apply (set_upds_ok wr (g_upd s) _ (wo_heap _ W)).
  - unfold stopped in Hs. destruct (cl_wr c); [destruct erase|]; simplify_eq; apply heap_ext_refl.
  - destruct (update_runs _ _ _ _ _ _ _ _ (ho_metrics _ (wo_heap _ W) _ _ Hm) Ha Hu) as [R _].
    destruct (mrun_frame _ _ _ _ _ _ _ R (ho_metrics _ (wo_heap _ W) _ _ Hm)) as (F1 & F2 & F3 & F4 & F5 & F6 & F7).
    eapply upd_heap_ext; eauto.
Qed.

(** Every step keeps the links, provided AddMetric is given the right domain object. *)
Lemma step_linked w cl o w' : w_ok w -> wstep w cl o w' -> links_ok w cl ->
  (forall rid r, w_regs w !! rid = Some r -> all_linked (w_heap w) r) -> forall rid r, w_regs w' !! rid = Some r -> all_linked (w_heap w') r.
Proof.
  intros W H HL L rid r' Hr'. destruct (w_regs w !! rid) as [r|] eqn:Hr.
  2: { assert (r' = new_registry) as ->.
    { assert (forall rid0 rr r0, w_regs w !! rid0 = Some r0 -> <[rid0 := rr]> (w_regs w) !! rid = Some r' -> r' = new_registry) as K.
      { intros rid0 rr r0 A1 A2. rewrite lookup_insert_ne in A2 by congruence. congruence. }
      destruct H; cbn [w_regs set_regs started] in Hr'; try congruence; try (eapply K; eauto; fail).
      - apply lookup_insert_Some in Hr' as [[_ <-]|[_ Hr']]; [reflexivity|congruence].
      - destruct (add_indom r ip d); [eapply K; eauto|congruence].
      - match goal with Hs : stopped _ _ _ _ _ = _ |- _ => unfold stopped in Hs end. repeat case_match; simplify_eq; cbn [w_regs set_regs] in Hr'; eapply K; eauto. }
    intros n mp m Hn. cbn [r_metrics new_registry] in Hn. rewrite lookup_empty in Hn. discriminate. }
  pose proof (wo_heap _ W) as Hh. pose proof (wo_regs _ W _ _ Hr) as Hro. pose proof (L _ _ Hr) as L0.
  destruct (registers_dec rid cl) as [HR|HR].
  - destruct (reg_call_next _ _ _ _ _ _ W H HR Hr) as (r1 & E & N). rewrite E, lookup_insert in Hr'. assert (r1 = r') as -> by congruence.
    destruct H as [| | | |w rid0 mp r0 m o r1 Hd Hr0 Hm Ha|w rid0 ip r0 d Hd Hr0 Hip|w rid0 ip name insts r0 o hp' r1 Hd Hr0 Hip Ha
      |w rid0 mp ip name indom insts val t s u ord r0 o hp' r1 Hd Hr0 Hmp Hip Hv Hda Hord Ha| | | | | | | |]; cbn [registers] in HR; try contradiction;
      subst rid0; assert (r0 = r) as -> by congruence; cbn [w_heap w_regs set_regs] in *.
    + assert (r1 = r') as -> by (apply (f_equal (lookup rid)) in E; rewrite !lookup_insert in E; congruence).
      eapply add_metric_linked; eauto.
    + assert (r_metrics r' = r_metrics r) as Em.
      { destruct (add_indom r ip d) as [r1|] eqn:Ea.
        - assert (r1 = r') as -> by (apply (f_equal (lookup rid)) in E; rewrite !lookup_insert in E; congruence).
          unfold add_indom in Ea. repeat case_match; simplify_eq; reflexivity.
        - assert (r' = r) as -> by (apply (f_equal (lookup rid)) in E; rewrite lookup_insert in E; congruence). reflexivity. }
      eapply all_linked_ext; [exact Hh|apply heap_ext_refl|exact Hro|exact Em|apply N|exact L0].
    + assert (r1 = r') as -> by (apply (f_equal (lookup rid)) in E; rewrite !lookup_insert in E; congruence).
      eapply all_linked_ext; [exact Hh|exact (rn_ext _ _ _ _ _ N)|exact Hro| |apply N|exact L0].
      revert Ha. unfold add_indom_by_name, add_indom. repeat case_match; intros; by simplify_eq.
    + assert (r1 = r') as -> by (apply (f_equal (lookup rid)) in E; rewrite !lookup_insert in E; congruence).
      eapply by_string_linked; eauto.
  - destruct (other_call_regs _ _ _ _ _ _ H HR Hr) as (r1 & E & K). assert (r1 = r') as -> by congruence.
    assert (r_metrics r' = r_metrics r /\ r_indoms r' = r_indoms r) as [Em Ei] by (destruct K as [->|[->|[-> _]]]; auto).
    eapply all_linked_ext; [exact Hh|by eapply step_heap_ext|exact Hro|exact Em|by rewrite Ei|exact L0].
Qed.
Lemma hist_linked w tr w' : w_ok w -> (forall rid r, w_regs w !! rid = Some r -> all_linked (w_heap w) r) -> phist links_ok w tr w' ->
  forall rid r, w_regs w' !! rid = Some r -> all_linked (w_heap w') r.
Proof.
  intros W L H. revert W L. induction H as [w|w cl o w1 tr w' P S H IH]; intros W L; [exact L|].
  apply IH; [by eapply wstep_ok|]. by eapply step_linked.
Qed.

(** ** Clients and counts *)
Lemma step_cluster w cl o w' cid c : wstep w cl o w' -> w_clients w !! cid = Some c ->
  exists c', w_clients w' !! cid = Some c' /\ cl_cluster c' = cl_cluster c /\ cl_loc c' = cl_loc c /\ cl_reg c' = cl_reg c.
Proof.
  intros H Hc. destruct H; cbn [w_clients set_regs started]; try (exists c; auto; fail).
  - exists c. rewrite lookup_insert_ne by congruence. auto.
  - destruct (r_mapped r); [exists c; auto|]. destruct (decide (cid0 = cid)) as [->|N]; [|exists c; rewrite lookup_insert_ne by exact N; auto].
    assert (c0 = c) as -> by congruence. rewrite lookup_insert. eexists. split; [reflexivity|]. auto.
  - destruct (decide (cid0 = cid)) as [->|N]; [|exists c; rewrite lookup_insert_ne by exact N; auto].
    assert (c0 = c) as -> by congruence. rewrite lookup_insert. eexists. split; [reflexivity|]. auto.
  - match goal with Hs : stopped _ _ _ _ _ = _ |- _ => unfold stopped in Hs end.
    destruct (decide (cid0 = cid)) as [->|N]; [assert (c0 = c) as -> by congruence|]; repeat case_match; simplify_eq; cbn [w_clients set_regs];
      rewrite ?lookup_insert, ?lookup_insert_ne by done; eexists; (split; [first [reflexivity|eassumption]|auto]).
  - destruct (decide (cid0 = cid)) as [->|N]; [|exists c; rewrite lookup_insert_ne by exact N; auto].
    assert (c0 = c) as -> by congruence. rewrite lookup_insert. eexists. split; [reflexivity|]. auto.
Qed.

(** ** MatchInstances *)
Lemma match_instances_spec d ins : match_instances d ins = true <->
  zlen ins = Z.of_nat (size (id_insts d)) /\ forall n, n ∈ ins -> is_Some (id_insts d !! n).
Proof.
  unfold match_instances, instance_count, has_instance. rewrite andb_true_iff, Z.eqb_eq, forallb_forall. split; intros [A B]; (split; [exact A|]).
  - intros n H. apply elem_of_list_In, B in H. by apply bool_decide_eq_true in H.
  - intros n H. apply bool_decide_eq_true, B, elem_of_list_In, H.
Qed.
Lemma match_nodup d ins : NoDup ins -> match_instances d ins = true <-> (forall n, n ∈ ins <-> is_Some (id_insts d !! n)).
Proof.
  intros ND. rewrite match_instances_spec. split.
  - intros [Hl Hi] n. split; [apply Hi|]. intros Hn.
    assert ((list_to_set ins : gset gostring) = dom (id_insts d)) as E.
    { assert ((list_to_set ins : gset gostring) ⊆ dom (id_insts d)) as S by (intros x Hx; apply elem_of_dom, Hi; by apply elem_of_list_to_set in Hx).
      destruct (decide (dom (id_insts d) ⊆ (list_to_set ins : gset gostring))) as [S'|S']; [by apply (anti_symm (⊆))|].
      pose proof (subset_size _ _ (conj S S')) as K. rewrite size_list_to_set in K by exact ND. rewrite size_dom in K. unfold zlen in Hl. lia. }
    apply (elem_of_list_to_set (C := gset gostring)). rewrite E. by apply elem_of_dom.
  - intros H. split; [|intros n; apply H]. assert ((list_to_set ins : gset gostring) = dom (id_insts d)) as E.
    { apply set_eq. intros x. rewrite elem_of_list_to_set, elem_of_dom. apply H. }
    apply (f_equal size) in E. rewrite size_list_to_set in E by exact ND. rewrite size_dom in E. unfold zlen. lia.
Qed.

(** ** Colliding hashes *)
Lemma too_many_metrics (X : gmap gostring nat) (f : gostring -> Z) (B : nat) : (B < size X)%nat ->
  (forall n, is_Some (X !! n) -> 0 <= f n < Z.of_nat B) ->
  exists n1 n2, n1 <> n2 /\ is_Some (X !! n1) /\ is_Some (X !! n2) /\ f n1 = f n2.
Proof.
  intros Hs Hf. set (l := (map_to_list X).*1). assert (NoDup l) as ND by apply NoDup_fst_map_to_list.
  assert (forall n, n ∈ l -> is_Some (X !! n)) as Hl.
  { intros n Hn. apply elem_of_list_fmap in Hn as ([k v] & -> & Hk). apply elem_of_map_to_list in Hk. eauto. }
  destruct (decide (NoDup (map f l))) as [N|N].
  - exfalso. assert (length (map f l) <= length (map Z.of_nat (seq 0 B)))%nat as K.
    { apply submseteq_length, NoDup_submseteq; [exact N|]. intros z Hz. apply elem_of_list_fmap in Hz as (n & -> & Hn). specialize (Hf n (Hl n Hn)).
      apply elem_of_list_fmap. exists (Z.to_nat (f n)). split; [lia|]. apply elem_of_seq. lia. }
    rewrite !map_length, seq_length in K. unfold l in K. rewrite fmap_length in K. change (length (map_to_list X)) with (size X) in K. lia.
  - assert (forall l, NoDup l -> ~ NoDup (map f l) -> exists n1 n2, n1 <> n2 /\ n1 ∈ l /\ n2 ∈ l /\ f n1 = f n2) as G.
    { clear. induction l as [|a l IH]; intros ND N; [destruct N; constructor|]. apply NoDup_cons in ND as [Ha ND].
      destruct (decide (f a ∈ map f l)) as [Hin|Hin].
      - apply elem_of_list_fmap in Hin as (b & Hb & Hbl). exists a, b. split_and!; [intros ->; auto|left|by right|exact Hb].
      - destruct (IH ND) as (n1 & n2 & A1 & A2 & A3 & A4); [intros H; apply N; by constructor|]. exists n1, n2. split_and!; auto; by right. }
    destruct (G l ND N) as (n1 & n2 & A1 & A2 & A3 & A4). exists n1, n2. auto.
Qed.

(** ** FNV-1a *)
(** The hash as usually defined (32 bits, offset basis 0x811c9dc5, prime 0x01000193), by recursion on the last byte. *)
Inductive fnv32 : gostring -> Z -> Prop :=
| fnv_nil : fnv32 [] 2166136261
| fnv_snoc s h b : fnv32 s h -> fnv32 (s ++ [b]) ((Z.lxor h (byteZ b) * 16777619) mod 4294967296).
Lemma fnv32_det s h : fnv32 s h -> forall h', fnv32 s h' -> h' = h.
Proof.
  induction 1 as [|s h b H IH]; intros h' H'; inversion H' as [E E2|s' h'' b' H'' E E2].
  - reflexivity.
  - by apply app_nil in E as [_ ?].
  - by apply (eq_sym (y := _)), app_nil in E as [_ ?].
  - apply app_inj_tail in E as [-> ->]. by rewrite (IH _ H'').
Qed.
Lemma fnv1a_spec s : fnv32 s (fnv1a s).
Proof.
  induction s as [|b s IH] using rev_ind; [constructor|]. unfold fnv1a. rewrite foldl_app. cbn. unfold fnv_step, to_unsigned. by apply fnv_snoc.
Qed.
Lemma hash_spec s b : 0 < b < 32 -> hash s b = fnv1a s mod 2 ^ b.
Proof.
  intros Hb. unfold hash. rewrite (proj2 (Z.eqb_neq b 0)) by lia. rewrite Z.shiftl_1_l. unfold to_unsigned.
  assert (0 < 2 ^ b < 2 ^ 32) as K by (split; [apply Z.pow_pos_nonneg; lia|apply Z.pow_lt_mono_r; lia]).
  rewrite (Z.mod_small (2 ^ b)) by lia. rewrite Z.mod_small by lia.
  replace (2 ^ b - 1) with (Z.ones b) by (rewrite Z.ones_equiv; lia). apply Z.land_ones. lia.
Qed.

(** ** Duplicate names *)
Lemma by_string_dup hp r mp ip name indom insts val t s u ord o hp' r' mp0 : desc_args t s u ->
  add_by_string hp r mp ip name indom insts val t s u ord = (o, hp', r') -> r_metrics r !! name = Some mp0 -> o <> ROk.
Proof.
  intros Hda H Hn. assert (forall hp1 r1 m, md_name (m_desc m) = name -> r_metrics r1 = r_metrics r -> (add_metric hp1 r1 mp m).1 <> ROk) as G.
  { intros hp1 r1 m E1 E2. unfold add_metric, HasMetric. rewrite E1, E2, Hn. rewrite bool_decide_true by eauto. by destruct (r_mapped r1). }
  assert (forall hp1 r1 ip1 vals, r_metrics r1 = r_metrics r -> (add_instance_with hp1 r1 mp ip1 name vals t s u ord).1.1 <> ROk) as F.
  { intros hp1 r1 ip1 vals E. unfold add_instance_with. destruct (h_indoms hp1 !! ip1) as [d|]; [|done].
    destruct (NewPCPInstanceMetric _ _ _ _ _ _ _ _ _) as [m|] eqn:Em; [|done].
    assert (md_name (m_desc m) = name) as Hm.
    { unfold NewPCPInstanceMetric in Em. destruct (new_desc _ _ _ _ []) as [dd|] eqn:Ed; [|discriminate].
      destruct (new_desc_ok _ _ _ _ _ _ Hda Ed) as (_ & D3 & _). unfold new_inst_body in Em. repeat case_match; try discriminate; injection Em as <-; cbn; congruence. }
    specialize (G hp1 r1 m Hm E). destruct (add_metric hp1 r1 mp m) as [[] r2]; cbn in *; try done. }
  revert H. unfold add_by_string. destruct insts as [l|].
  - unfold add_instance_by_string. destruct val as [v|vals]; [intros; by simplify_eq|].
    destruct (r_indoms r !! indom) as [ip'|].
    + destruct (h_indoms hp !! ip'); [|intros; by simplify_eq]. destruct (match_instances _ _); [|intros; by simplify_eq].
      intros H. specialize (F hp r ip' vals eq_refl). by rewrite H in F.
    + destruct (add_indom_by_name hp r ip indom l) as [[o1 hp1] r1] eqn:E1. destruct o1; try (intros; by simplify_eq).
      intros H. assert (r_metrics r1 = r_metrics r) as Em.
      { revert E1. unfold add_indom_by_name, add_indom. repeat case_match; intros; by simplify_eq. }
      specialize (F hp1 r1 ip vals Em). by rewrite H in F.
  - unfold add_singleton_by_string. destruct (NewPCPSingletonMetric _ _ _ _ _ _) as [m|] eqn:Em; [|intros; by simplify_eq].
    assert (md_name (m_desc m) = name) as Hm.
    { unfold NewPCPSingletonMetric in Em. destruct (new_desc _ _ _ _ []) as [dd|] eqn:Ed; [|repeat case_match; discriminate].
      destruct (new_desc_ok _ _ _ _ _ _ Hda Ed) as (_ & D3 & _). unfold new_single in Em. repeat case_match; try discriminate; injection Em as <-; cbn; congruence. }
    specialize (G hp r m Hm eq_refl). destruct (add_metric hp r mp m) as [[] r2]; cbn in *; intros; simplify_eq; done.
Qed.

(** ** What a reader sees, without padding *)
Lemma cstr_zeros s n : cstr (s ++ zeros n) = cstr s.
Proof.
  induction s as [|c s IH]; cbn; [unfold zeros; destruct (Z.to_nat _); reflexivity|].
  destruct (bool_decide (c = x00)); [reflexivity|]. by f_equal.
Qed.
Lemma cstr_padded w s : cstr (padded w s) = cstr s.
Proof. apply cstr_zeros. Qed.
Lemma cstr_id s : x00 ∉ s -> cstr s = s.
Proof.
  induction s as [|c s IH]; intros H; [reflexivity|]. cbn. apply not_elem_of_cons in H as [H1 H2]. rewrite bool_decide_false by congruence. by rewrite IH.
Qed.

(** The contents of a view, names taken as C strings. *)
Definition plain_inst (i : vinst) : vinst := mkVI (vi_indom i) (vi_id i) (cstr (vi_name i)).
Definition plain_metric (m : vmetric) : vmetric :=
  mkVM (cstr (vm_name m)) (vm_item m) (vm_type m) (vm_sem m) (vm_unit m) (vm_indom m) (vm_short m) (vm_long m).
Definition plain_value (v : vvalue) : vvalue := mkVV (plain_metric (vv_metric v)) (plain_inst <$> vv_inst v) (vv_val v).
Definition plain (V : view) : view :=
  mkView (v_indoms V) (map plain_inst (v_insts V)) (map plain_metric (v_metrics V)) (map plain_value (v_values V)).

(** What a registry should show whatever the version: no field widths for names. *)
Definition info_inst (d : indom) (i : gostring * Z) : vinst := mkVI (id_id d) (to_signed 32 i.2) (cstr i.1).
Definition info_metric (d : mdesc) (dom : option indom) : vmetric :=
  mkVM (cstr (md_name d)) (md_id d) (md_type d) (md_sem d) (md_unit d)
    (match dom with Some i => id_id i | None => -1 end) (text (md_short d)) (text (md_long d)).
Definition info_values (hp : heap) (m : metric) : list vvalue :=
  let vm := info_metric (m_desc m) (metric_dom hp m) in
  match m_body m with
  | BSingle c => [mkVV vm None (want_val (c_val c))]
  | BInst ip cells =>
      match h_indoms hp !! ip with
      | None => []
      | Some d => omap (fun i => c ← cells !! i.1; Some (mkVV vm (Some (info_inst d i)) (want_val (c_val c)))) (map_to_list (id_insts d))
      end
  end.
Definition info (hp : heap) (doms : list indom) (mets : list metric) : view :=
  mkView (map want_indom doms) (concat (map (fun d => map (info_inst d) (map_to_list (id_insts d))) doms))
    (map (fun m => info_metric (m_desc m) (metric_dom hp m)) mets) (concat (map (info_values hp) mets)).

Lemma plain_want hp r : plain (want_view hp r) = info hp (reg_indoms hp r) (reg_metrics hp r).
Proof.
  unfold plain, want_view, info. cbn [v_indoms v_insts v_metrics v_values].
  assert (forall v2 d i, plain_inst (want_inst v2 d i) = info_inst d i) as A1.
  { intros v2 d i. unfold plain_inst, want_inst, info_inst. cbn. by rewrite cstr_padded. }
  assert (forall v2 d dm, plain_metric (want_metric v2 d dm) = info_metric d dm) as A2.
  { intros v2 d dm. unfold plain_metric, want_metric, info_metric. cbn. by rewrite cstr_padded. }
  f_equal.
  - induction (reg_indoms hp r) as [|d l IH]; [reflexivity|]. cbn. rewrite map_app, IH. f_equal. rewrite map_map. apply map_ext, A1.
  - rewrite map_map. apply map_ext. intros m. apply A2.
  - induction (reg_metrics hp r) as [|m l IH]; [reflexivity|]. cbn. rewrite map_app, IH. f_equal. unfold want_values, info_values.
    destruct (m_body m) as [c|ip cells]; [cbn; unfold plain_value; cbn; by rewrite A2|]. destruct (h_indoms hp !! ip) as [d|]; [|reflexivity].
    induction (map_to_list (id_insts d)) as [|i is IHi]; [reflexivity|]. cbn. destruct (cells !! i.1); cbn; [|exact IHi]. rewrite <- IHi. f_equal. unfold plain_value. cbn. by rewrite A2, A1.
Qed.

(** ** Published values and their instances *)
Record publishable (hp : heap) (r : registry) : Prop := {
  pu_nonempty : r_indoms r = ∅ \/ Exists (fun d => id_insts d <> ∅) (reg_indoms hp r);
  pu_doms : Forall (fun d => zlen (id_short d) <= 256 /\ zlen (id_long d) <= 256) (reg_indoms hp r);
  pu_mets : Forall (fun m => zlen (md_short (m_desc m)) <= 256 /\ zlen (md_long (m_desc m)) <= 256 /\ body_fits (m_body m)) (reg_metrics hp r);
  pu_counts : counts_ok r }.
Lemma linked_startable hp r : reg_ok hp r -> publishable hp r -> all_linked hp r -> startable hp r.
Proof.
  intros Hr [P1 P2 P3 P4] L. split; auto. apply Forall_forall. intros m Hm ip cells d Hb Hd. unfold reg_metrics in Hm.
  apply elem_of_list_omap in Hm as (mp & Hin & Hm). apply elem_of_list_fmap in Hin as ([n mp'] & -> & Hin). apply elem_of_map_to_list in Hin. cbn in Hm.
  eapply L; [exact Hin|exact Hm| |exact Hd]. unfold m_indom. by rewrite Hb.
Qed.
Lemma want_value_inst hp v2 m v : v ∈ want_values hp v2 m ->
  match vv_inst v with Some i => vi_indom i = vm_indom (vv_metric v) | None => vm_indom (vv_metric v) = -1 end.
Proof.
  unfold want_values. unfold metric_dom. destruct (m_body m) as [c|ip cells].
  - intros H. apply elem_of_list_singleton in H as ->. reflexivity.
  - destruct (h_indoms hp !! ip) as [d|]; [|intros H; by apply elem_of_nil in H]. intros H. apply elem_of_list_omap in H as (i & _ & H).
    destruct (cells !! i.1); [|discriminate]. cbn in H. injection H as <-. reflexivity.
Qed.
