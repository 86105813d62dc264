(** Registry operations and constructors keep the invariants of RegInv.v. *)
From Verif Require Import Base BaseFacts Floats GoVal MetricType ByteWriter Hash Units Indom Metrics Registry Prog
  Client View RegInv World OpRuns.

(** ** Constructors *)
Lemma add_instances_spec l : forall m m', add_instances m l = Some m' ->
  Forall (fun i => zlen i <= 256) l /\
  (forall n i, m' !! n = Some i -> m !! n = Some i \/ (n ∈ l /\ i = inst_id n)) /\ (forall n, is_Some (m' !! n) <-> is_Some (m !! n) \/ n ∈ l).
Proof.
  induction l as [|x l IH]; intros m m' H; cbn [add_instances] in H.
  - simplify_eq. split_and!; [constructor|auto|]. intros n. split; [auto|]. intros [|H]; [auto|inversion H].
  - destruct (StringLength <? zlen x) eqn:E; [discriminate|]. destruct (IH _ _ H) as (H1 & H2 & H3). split_and!.
    + constructor; [unfold StringLength in E; lia|exact H1].
    + intros n i Hn. destruct (H2 _ _ Hn) as [K|[K1 K2]].
      * apply lookup_insert_Some in K as [[<- <-]|[_ K]]; [|auto]. right. split; [left|reflexivity].
      * right. split; [by right|exact K2].
    + intros n. rewrite H3, elem_of_cons. destruct (decide (n = x)) as [->|N].
      * rewrite lookup_insert. split; [auto|]. intros _. left. eauto.
      * rewrite lookup_insert_ne by auto. tauto.
Qed.

Lemma new_indom_ok name insts desc d : new_indom name insts desc = Some d -> indom_ok d /\ id_name d = name /\
  (forall n, is_Some (id_insts d !! n) <-> n ∈ insts) /\ id_short d = desc_short desc /\ id_long d = desc_long desc.
Proof.
  unfold new_indom. case_bool_decide as H0; [discriminate|]. destruct (2 <? zlen desc); [discriminate|].
  destruct (add_instances ∅ insts) as [m|] eqn:E; [|discriminate]. intros H. simplify_eq.
  destruct (add_instances_spec _ _ _ E) as (H1 & H2 & H3). cbn. split_and!; auto.
  - split; cbn; auto. intros n i Hn. destruct (H2 _ _ Hn) as [K|[K1 K2]]; [rewrite lookup_empty in K; discriminate|].
    split; [exact K2|]. rewrite Forall_forall in H1. apply H1, K1.
  - intros n. rewrite H3, lookup_empty. split; [|auto]. intros [[? ?]|]; [discriminate|auto].
Qed.

Lemma new_desc_ok name t s u desc d : desc_args t s u -> new_desc name t s u desc = Some d -> desc_ok d /\ md_name d = name /\ md_type d = t /\
  md_sem d = s /\ md_unit d = u.
Proof.
  intros (H1 & H2 & H3). unfold new_desc. case_bool_decide as H0; [discriminate|]. destruct (StringLength <? zlen name) eqn:E; [discriminate|].
  destruct (2 <? zlen desc); [discriminate|]. intros H. simplify_eq. cbn. split_and!; auto. split; cbn; auto. unfold StringLength in E. lia.
Qed.

Lemma new_single_ok hp v d k m : desc_ok d -> wf_goval v ->
  kind_ok k (md_type d) (BSingle (mkCell v None)) -> new_single v d k = Some m -> metric_ok hp m.
Proof.
  intros Hd Hw Hk. unfold new_single. destruct (IsCompatible _ v) eqn:E; [|discriminate]. intros H. simplify_eq. split; cbn; auto. by apply resolve_typed.
Qed.

Lemma init_vals_spec t vals ord : forall acc cells, init_vals t vals ord acc = Some cells ->
  Forall (fun i => exists v, vals !! i = Some v /\ IsCompatible t v = true) ord /\
  forall i, cells !! i = if decide (i ∈ ord) then (fun v => mkCell (resolve t v) None) <$> vals !! i else acc !! i.
Proof.
  induction ord as [|x ord IH]; intros acc cells H; cbn [init_vals] in H.
  - simplify_eq. split; [constructor|]. intros i. rewrite decide_False; [reflexivity|]. apply not_elem_of_nil.
  - destruct (vals !! x) as [v|] eqn:Ev; [|discriminate]. destruct (IsCompatible t v) eqn:Ec; [|discriminate].
    destruct (IH _ _ H) as [H1 H2]. split; [constructor; eauto|]. intros i. rewrite H2.
    destruct (decide (i ∈ ord)) as [Hi|Hi].
    + rewrite decide_True by (by right). reflexivity.
    + destruct (decide (i = x)) as [->|N].
      * rewrite decide_True by left. rewrite lookup_insert, Ev. reflexivity.
      * rewrite decide_False, lookup_insert_ne; auto. intros K. apply elem_of_cons in K as [|]; auto.
Qed.

Lemma init_vals_some t vals ord : forall acc, Forall (fun i => exists v, vals !! i = Some v /\ IsCompatible t v = true) ord ->
  is_Some (init_vals t vals ord acc).
Proof.
  induction ord as [|x ord IH]; intros acc H; cbn [init_vals]; [eauto|]. inversion H as [|? ? (v & Hv & Hc) H2]; subst.
  rewrite Hv, Hc. apply IH, H2.
Qed.

Lemma new_inst_ok hp vals ip dom d k ord m : desc_ok d -> (forall i v, vals !! i = Some v -> wf_goval v) ->
  kind_ok k (md_type d) (BInst ip ∅) -> h_indoms hp !! ip = Some dom -> ord ≡ₚ (map_to_list (id_insts dom)).*1 ->
  new_inst_body vals ip dom d k ord = Some m -> metric_ok hp m /\ m_indom m = Some ip.
Proof.
  intros Hd Hw Hk Hi Ho. unfold new_inst_body. destruct (_ =? _); [|discriminate].
  destruct (init_vals _ vals ord ∅) as [cells|] eqn:E; [|discriminate]. intros H. simplify_eq.
  destruct (init_vals_spec _ _ _ _ _ E) as [H1 H2]. split; [|reflexivity].
  assert (forall i, i ∈ ord <-> is_Some (id_insts dom !! i)) as Hin.
  { intros i. rewrite Ho, elem_of_list_fmap. split.
    - intros ([j z] & -> & K). apply elem_of_map_to_list in K. cbn. eauto.
    - intros [z K]. exists (i, z). split; [reflexivity|]. by apply elem_of_map_to_list. }
  rewrite Forall_forall in H1. split; cbn; auto.
  - exists dom. split_and!; auto.
    + apply set_eq. intros i. rewrite !elem_of_dom, <- Hin, H2. destruct (decide (i ∈ ord)) as [K|K].
      * destruct (H1 _ K) as (v & -> & _). cbn. split; eauto.
      * rewrite lookup_empty. split; [intros [? ?]; discriminate|contradiction].
    + intros n c Hc. rewrite H2 in Hc. destruct (decide (n ∈ ord)) as [K|K]; [|rewrite lookup_empty in Hc; discriminate].
      destruct (H1 _ K) as (v & Hv & Hcomp). rewrite Hv in Hc. cbn in Hc. simplify_eq. cbn. apply resolve_typed; eauto.
Qed.

(** ** Growing heaps *)
Record heap_ext (hp hp' : heap) : Prop := {
  he_i : forall ip d, h_indoms hp !! ip = Some d -> h_indoms hp' !! ip = Some d;
  he_m : forall mp m, h_metrics hp !! mp = Some m -> exists m', h_metrics hp' !! mp = Some m' /\
    m_desc m' = m_desc m /\ m_indom m' = m_indom m }.

Lemma metric_ok_ext hp hp' m : (forall ip d, h_indoms hp !! ip = Some d -> h_indoms hp' !! ip = Some d) -> metric_ok hp m -> metric_ok hp' m.
Proof.
  intros He [H1 H2 H3]. split; auto. unfold body_ok in *. destruct (m_body m); [exact H2|].
  destruct H2 as (d & Hd & K1 & K2). exists d. auto.
Qed.

Lemma metric_dom_ext hp hp' m m' : heap_ext hp hp' -> metric_ok hp m -> m_indom m' = m_indom m -> metric_dom hp' m' = metric_dom hp m.
Proof.
  intros He Hm. unfold m_indom, metric_dom. pose proof (mo_body _ _ Hm) as HB. unfold body_ok in HB.
  destruct (m_body m'), (m_body m); intros E; try discriminate; [reflexivity|]. simplify_eq.
  destruct HB as (d & Hd & _). rewrite Hd. by apply (he_i _ _ He).
Qed.

Lemma reg_indoms_ext hp hp' r : heap_ext hp hp' -> reg_ok hp r -> reg_indoms hp' r = reg_indoms hp r.
Proof.
  intros He Hr. unfold reg_indoms. assert (forall ip, ip ∈ (map_to_list (r_indoms r)).*2 -> is_Some (h_indoms hp !! ip)) as G.
  { intros ip H. apply elem_of_list_fmap in H as ([n ip'] & -> & H). apply elem_of_map_to_list in H.
    destruct (ro_indoms _ _ Hr _ _ H) as (d & Hd & _). eauto. }
  induction (map_to_list (r_indoms r)).*2 as [|ip l IH]; [reflexivity|]. cbn. destruct (G ip) as [d Hd]; [left|].
  rewrite Hd, (he_i _ _ He _ _ Hd). f_equal. apply IH. intros. apply G. by right.
Qed.

Lemma reg_metrics_ext hp hp' r : heap_ok hp -> heap_ext hp hp' -> reg_ok hp r ->
  Forall2 (fun m m' => m_desc m' = m_desc m /\ metric_dom hp' m' = metric_dom hp m) (reg_metrics hp r) (reg_metrics hp' r).
Proof.
  intros Hh He Hr. unfold reg_metrics. assert (forall mp, mp ∈ (map_to_list (r_metrics r)).*2 -> is_Some (h_metrics hp !! mp)) as G.
  { intros mp H. apply elem_of_list_fmap in H as ([n mp'] & -> & H). apply elem_of_map_to_list in H.
    destruct (ro_metrics _ _ Hr _ _ H) as (d & Hd & _). eauto. }
  induction (map_to_list (r_metrics r)).*2 as [|mp l IH]; [constructor|]. cbn. destruct (G mp) as [m Hm]; [left|].
  destruct (he_m _ _ He _ _ Hm) as (m' & Hm' & E1 & E2). rewrite Hm, Hm'. constructor.
  - split; [exact E1|]. eapply metric_dom_ext; eauto. eapply ho_metrics; eauto.
  - apply IH. intros. apply G. by right.
Qed.

Lemma Forall2_sum {A B} (R : A -> B -> Prop) f g l l' : Forall2 R l l' -> (forall x y, R x y -> f x = g y) -> sumZ (map f l) = sumZ (map g l').
Proof. intros H Hfg. induction H; cbn; [reflexivity|]. f_equal; auto. Qed.
Lemma Forall2_Exists {A B} (R : A -> B -> Prop) (P : A -> Prop) (Q : B -> Prop) l l' : Forall2 R l l' -> (forall x y, R x y -> P x <-> Q y) ->
  Exists P l <-> Exists Q l'.
Proof.
  intros H HPQ. induction H; [rewrite !Exists_nil; reflexivity|]. rewrite !Exists_cons, IHForall2, HPQ by eassumption. reflexivity.
Qed.

Lemma reg_ok_ext hp hp' r : heap_ok hp -> heap_ext hp hp' -> reg_ok hp r -> reg_ok hp' r.
Proof.
  intros Hh He Hr. pose proof (reg_indoms_ext _ _ _ He Hr) as EI. pose proof (reg_metrics_ext _ _ _ Hh He Hr) as EM. split.
  - intros n ip H. destruct (ro_indoms _ _ Hr _ _ H) as (d & Hd & Hn). eauto using he_i.
  - intros n mp H. destruct (ro_metrics _ _ Hr _ _ H) as (m & Hm & Hn). destruct (he_m _ _ He _ _ Hm) as (m' & Hm' & E & _).
    exists m'. split; [exact Hm'|]. congruence.
  - intros n mp m' d H Hm' Hd. destruct (ro_metrics _ _ Hr _ _ H) as (m & Hm & Hn). destruct (he_m _ _ He _ _ Hm) as (m2 & Hm2 & E1 & E2).
    assert (m2 = m') as -> by congruence. eapply ro_doms; eauto. rewrite <- Hd. symmetry. eapply metric_dom_ext; eauto. eapply ho_metrics; eauto.
  - rewrite (ro_ic _ _ Hr). unfold spec_instances. rewrite EI. reflexivity.
  - rewrite (ro_vc _ _ Hr). unfold spec_values. eapply Forall2_sum; [exact EM|]. intros m m' [_ E]. unfold n_values. rewrite E. reflexivity.
  - rewrite (ro_sc _ _ Hr). unfold spec_texts. rewrite EI. f_equal. eapply Forall2_sum; [exact EM|].
    intros m m' [E1 E2]. unfold n_values. rewrite E1, E2. reflexivity.
  - rewrite (ro_v2 _ _ Hr). unfold spec_long. rewrite EI. rewrite (Forall2_Exists _ _ (fun m => long_name (md_name (m_desc m))) _ _ EM); [reflexivity|].
    intros m m' [-> _]. reflexivity.
Qed.

(** ** Registration *)
Lemma reg_ok_new hp : reg_ok hp new_registry.
Proof.
  split; cbn; try (intros; rewrite lookup_empty in *; discriminate).
  all: try reflexivity. unfold spec_long, reg_indoms, reg_metrics. cbn. rewrite !map_to_list_empty. cbn. rewrite !Exists_nil. split; [discriminate|tauto].
Qed.

Lemma has_long_spec d : has_long_instance d = true <-> exists n i, id_insts d !! n = Some i /\ long_name n.
Proof.
  unfold has_long_instance. rewrite bool_decide_eq_true, Exists_exists. unfold long_name, MaxV1NameLength. split.
  - intros (n & H & L). apply elem_of_list_fmap in H as ([n' i] & -> & H). apply elem_of_map_to_list in H. eauto.
  - intros (n & i & H & L). exists n. split; [|exact L]. apply elem_of_list_fmap. exists (n, i). split; [reflexivity|]. by apply elem_of_map_to_list.
Qed.

Lemma insert_perm (m : gmap gostring nat) n ip : m !! n = None -> (map_to_list (<[n := ip]> m)).*2 ≡ₚ ip :: (map_to_list m).*2.
Proof. intros H. rewrite map_to_list_insert by exact H. reflexivity. Qed.

Lemma not_has r n : HasInstanceDomain r n = false -> r_indoms r !! n = None.
Proof. unfold HasInstanceDomain. case_bool_decide as H; [discriminate|]. intros _. by apply eq_None_not_Some. Qed.
Lemma not_has_m r n : HasMetric r n = false -> r_metrics r !! n = None.
Proof. unfold HasMetric. case_bool_decide as H; [discriminate|]. intros _. by apply eq_None_not_Some. Qed.

Lemma add_indom_ok hp r ip d r' : reg_ok hp r -> h_indoms hp !! ip = Some d -> add_indom r ip d = Some r' -> reg_ok hp r' /\
  r_metrics r' = r_metrics r /\ r_mapped r' = r_mapped r /\ r_mapped r = false /\ r_indoms r' = <[id_name d := ip]> (r_indoms r) /\ r_indoms r !! id_name d = None.
Proof.
  intros Hr Hd. unfold add_indom. destruct (HasInstanceDomain r (id_name d)) eqn:Hh; [discriminate|]. apply not_has in Hh.
  destruct (r_mapped r) eqn:Hm; [discriminate|]. intros H. simplify_eq. cbn. split_and!; auto.
  assert (reg_indoms hp (mkReg (<[id_name d := ip]> (r_indoms r)) (r_metrics r) (r_instanceCount r + instance_count d) (r_valueCount r)
     (r_stringcount r + b2z (nonempty (id_short d)) + b2z (nonempty (id_long d))) false (r_version2 r || has_long_instance d)) ≡ₚ d :: reg_indoms hp r) as HP.
  { unfold reg_indoms. cbn [r_indoms]. rewrite (insert_perm _ _ _ Hh). cbn. rewrite Hd. reflexivity. }
  set (r' := mkReg _ _ _ _ _ _ _) in *. split.
  - intros n ip' H. cbn in H. apply lookup_insert_Some in H as [[<- <-]|[_ H]]; [eauto|]. eapply ro_indoms; eauto.
  - intros n mp H. eapply ro_metrics; eauto.
  - intros n mp m d' H Hm' Hd'. cbn. destruct (decide (id_name d = id_name d')) as [->|N]; [rewrite lookup_insert; eauto|].
    rewrite lookup_insert_ne by exact N. eapply ro_doms; eauto.
  - cbn [r' r_instanceCount]. unfold spec_instances. rewrite (sum_perm _ _ _ HP). cbn [map sumZ]. rewrite (ro_ic _ _ Hr). unfold spec_instances, instance_count. lia.
  - cbn [r' r_valueCount]. rewrite (ro_vc _ _ Hr). reflexivity.
  - cbn [r' r_stringcount]. unfold spec_texts. rewrite (sum_perm _ _ _ HP). cbn [map sumZ]. rewrite (ro_sc _ _ Hr). unfold spec_texts.
    rewrite <- b2z_texts. change (reg_metrics hp r') with (reg_metrics hp r). lia.
  - cbn [r' r_version2]. rewrite orb_true_iff, (ro_v2 _ _ Hr), has_long_spec. unfold spec_long. rewrite HP, Exists_cons.
    change (reg_metrics hp r') with (reg_metrics hp r). tauto.
Qed.

Lemma add_raw_ok hp r mp m : reg_ok hp r -> h_metrics hp !! mp = Some m -> r_metrics r !! md_name (m_desc m) = None ->
  (forall d, metric_dom hp m = Some d -> is_Some (r_indoms r !! id_name d)) -> reg_ok hp (add_metric_raw r mp m (metric_dom hp m)).
Proof.
  intros Hr Hm Hn Hd.
  assert (reg_metrics hp (add_metric_raw r mp m (metric_dom hp m)) ≡ₚ m :: reg_metrics hp r) as HP.
  { unfold reg_metrics, add_metric_raw. cbn [r_metrics]. rewrite (insert_perm _ _ _ Hn). cbn. rewrite Hm. reflexivity. }
  assert (metric_values (metric_dom hp m) = n_values hp m) as Hv by reflexivity.
  set (r' := add_metric_raw _ _ _ _) in *. split.
  - intros n ip H. eapply ro_indoms; eauto.
  - intros n mp' H. cbn in H. apply lookup_insert_Some in H as [[<- <-]|[_ H]]; [eauto|]. eapply ro_metrics; eauto.
  - intros n mp' m' d H Hm' Hd'. cbn in H |- *. apply lookup_insert_Some in H as [[<- <-]|[_ H]]; [|eapply ro_doms; eauto].
    assert (m' = m) as -> by congruence. auto.
  - cbn [r' add_metric_raw r_instanceCount]. rewrite (ro_ic _ _ Hr). reflexivity.
  - cbn [r' add_metric_raw r_valueCount]. unfold spec_values. rewrite (sum_perm _ _ _ HP). cbn [map sumZ]. rewrite (ro_vc _ _ Hr), Hv. unfold spec_values. lia.
  - cbn [r' add_metric_raw r_stringcount]. unfold spec_texts. rewrite (sum_perm _ _ _ HP). cbn [map sumZ]. rewrite (ro_sc _ _ Hr), Hv. unfold spec_texts.
    rewrite <- b2z_texts. change (reg_indoms hp r') with (reg_indoms hp r). destruct (md_type (m_desc m) =? StringType); lia.
  - cbn [r' add_metric_raw r_version2]. rewrite orb_true_iff, (ro_v2 _ _ Hr). unfold spec_long. rewrite HP, Exists_cons.
    change (reg_indoms hp r') with (reg_indoms hp r). unfold long_name, MaxV1NameLength. rewrite Z.ltb_lt. tauto.
Qed.

(** What AddMetric can do. *)
Lemma add_metric_ok hp r mp m o r' : reg_ok hp r -> metric_ok hp m -> h_metrics hp !! mp = Some m -> add_metric hp r mp m = (o, r') ->
  reg_ok hp r' /\ r_mapped r' = r_mapped r /\ (o = RErr /\ r' = r \/ o = ROk /\ r_mapped r = false /\ r_metrics r !! md_name (m_desc m) = None /\
    r_metrics r' = <[md_name (m_desc m) := mp]> (r_metrics r)).
Proof.
  intros Hr Hm Hmp. unfold add_metric. destruct (r_mapped r) eqn:Em; [intros; simplify_eq; auto|].
  destruct (HasMetric r _) eqn:Hh; [intros; simplify_eq; auto|]. apply not_has_m in Hh.
  pose proof (mo_body _ _ Hm) as HB. unfold m_indom. destruct (m_body m) as [c|ip cells] eqn:Eb; cbn [body_ok] in HB.
  - intros H. simplify_eq. split; [replace (@None indom) with (metric_dom hp m) by (unfold metric_dom; rewrite Eb; reflexivity)|].
    { apply add_raw_ok; auto. intros d. unfold metric_dom. rewrite Eb. discriminate. }
    cbn. auto 10.
  - destruct HB as (d & Hd & _). rewrite Hd. assert (metric_dom hp m = Some d) as Hdom by (unfold metric_dom; rewrite Eb; exact Hd).
    destruct (HasInstanceDomain r (id_name d)) eqn:Ei.
    + intros H. simplify_eq. split; [|cbn; auto 10]. rewrite <- Hdom. apply add_raw_ok; auto. intros d' Hd'. assert (d' = d) as -> by congruence.
      unfold HasInstanceDomain in Ei. by apply bool_decide_eq_true in Ei.
    + destruct (add_indom r ip d) as [r1|] eqn:Ea; intros H; simplify_eq; [|auto].
      destruct (add_indom_ok _ _ _ _ _ Hr Hd Ea) as (Hr1 & E1 & E2 & _ & E3 & _). cbn. rewrite E1, E2. split; [|auto 10]. rewrite <- Hdom.
      apply add_raw_ok; auto; [congruence|]. intros d' Hd'. assert (d' = d) as -> by congruence. rewrite E3, lookup_insert. eauto.
Qed.

(** ** Counts *)
Lemma reg_indoms_count hp r : reg_ok hp r -> zlen (reg_indoms hp r) = InstanceDomainCount r.
Proof.
  intros Hr. unfold InstanceDomainCount, zlen. f_equal. change (size (r_indoms r)) with (length (map_to_list (r_indoms r))). unfold reg_indoms.
  assert (forall x, x ∈ map_to_list (r_indoms r) -> is_Some (h_indoms hp !! x.2)) as K.
  { intros [n ip] H. apply elem_of_map_to_list in H. destruct (ro_indoms _ _ Hr _ _ H) as (d & E & _). eauto. }
  induction (map_to_list (r_indoms r)) as [|x l IH]; [reflexivity|]. cbn. destruct (K x) as [d ->]; [left|]. cbn. f_equal. apply IH. intros y Hy. apply K. by right.
Qed.
Lemma reg_metrics_count hp r : reg_ok hp r -> zlen (reg_metrics hp r) = MetricCount r.
Proof.
  intros Hr. unfold MetricCount, zlen. f_equal. change (size (r_metrics r)) with (length (map_to_list (r_metrics r))). unfold reg_metrics.
  assert (forall x, x ∈ map_to_list (r_metrics r) -> is_Some (h_metrics hp !! x.2)) as K.
  { intros [n ip] H. apply elem_of_map_to_list in H. destruct (ro_metrics _ _ Hr _ _ H) as (d & E & _). eauto. }
  induction (map_to_list (r_metrics r)) as [|x l IH]; [reflexivity|]. cbn. destruct (K x) as [d ->]; [left|]. cbn. f_equal. apply IH. intros y Hy. apply K. by right.
Qed.
