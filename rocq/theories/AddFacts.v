(** Exactly when registering succeeds, and its effect. *)
From Verif Require Import Base BaseFacts Floats GoVal MetricType ByteWriter Hash Units Indom Metrics Registry Prog
  Client View RegInv World OpRuns RegFacts WorldInv RegSteps MetricFacts VectorFacts NewFacts.

(** Specification: room for one more metric or domain of this name. *)
Definition free_metric (r : registry) (n : gostring) : Prop := r_mapped r = false /\ r_metrics r !! n = None.
Definition free_indom (r : registry) (n : gostring) : Prop := r_mapped r = false /\ r_indoms r !! n = None.
(** The domains registered after registering [m]: its domain is added unless there is one of that name. *)
Definition with_domain_of (hp : heap) (m : metric) (doms : gmap gostring nat) : gmap gostring nat :=
  match m_indom m with
  | None => doms
  | Some ip => match h_indoms hp !! ip with
               | None => doms
               | Some d => match doms !! id_name d with Some _ => doms | None => <[id_name d := ip]> doms end
               end
  end.

Lemma has_metric_none r n : HasMetric r n = false <-> r_metrics r !! n = None.
Proof. unfold HasMetric. destruct (r_metrics r !! n); rewrite bool_decide_eq_false; split; intros H; eauto; [by destruct H; eauto|by intros [? ?]]. Qed.
Lemma has_indom_none r n : HasInstanceDomain r n = false <-> r_indoms r !! n = None.
Proof. unfold HasInstanceDomain. destruct (r_indoms r !! n); rewrite bool_decide_eq_false; split; intros H; eauto; [by destruct H; eauto|by intros [? ?]]. Qed.

Lemma add_metric_iff hp r mp m : (forall ip, m_indom m = Some ip -> is_Some (h_indoms hp !! ip)) ->
  (add_metric hp r mp m).1 = ROk <-> free_metric r (md_name (m_desc m)).
Proof.
  intros Hd. unfold add_metric, free_metric. destruct (r_mapped r) eqn:Em; [split; [done|by intros [? _]]|].
  destruct (HasMetric r (md_name (m_desc m))) eqn:Eh.
  { split; [done|]. intros [_ H]. apply has_metric_none in H. congruence. }
  apply has_metric_none in Eh. destruct (m_indom m) as [ip|] eqn:Ei; [|split; [auto|done]]. destruct (Hd ip eq_refl) as [d E]. rewrite E.
  destruct (HasInstanceDomain r (id_name d)) eqn:Ed; [split; [auto|done]|]. unfold add_indom. rewrite Ed, Em. split; [auto|done].
Qed.
Lemma add_metric_effect hp r mp m r' : add_metric hp r mp m = (ROk, r') ->
  r_metrics r' = <[md_name (m_desc m) := mp]> (r_metrics r) /\ r_indoms r' = with_domain_of hp m (r_indoms r) /\ r_mapped r' = false.
Proof.
  unfold add_metric, with_domain_of. intros H. destruct (r_mapped r) eqn:Em; [done|]. destruct (HasMetric _ _); [done|].
  destruct (m_indom m) as [ip|]; [|by injection H as <-]. destruct (h_indoms hp !! ip) as [d|]; [|done].
  destruct (HasInstanceDomain r (id_name d)) eqn:Ed.
  - injection H as <-. cbn. split_and!; auto. unfold HasInstanceDomain in Ed. destruct (r_indoms r !! id_name d); [done|]. by apply bool_decide_eq_true in Ed as [? ?].
  - unfold add_indom in H. rewrite Ed, Em in H. injection H as <-. cbn. apply has_indom_none in Ed. by rewrite Ed.
Qed.
Lemma add_indom_iff r ip d : is_Some (add_indom r ip d) <-> free_indom r (id_name d).
Proof.
  unfold add_indom, free_indom. destruct (HasInstanceDomain r (id_name d)) eqn:Ed.
  { split; [intros [? ?]; done|]. intros [_ H]. apply has_indom_none in H. congruence. }
  apply has_indom_none in Ed. destruct (r_mapped r); [split; [intros [? ?]; done|by intros [? _]]|]. split; eauto.
Qed.
Lemma add_indom_effect r ip d r' : add_indom r ip d = Some r' ->
  r_indoms r' = <[id_name d := ip]> (r_indoms r) /\ r_metrics r' = r_metrics r /\ r_mapped r' = false.
Proof. unfold add_indom. intros H. repeat (case_match; simplify_eq). cbn. auto. Qed.

Lemma add_by_name_iff hp r ip name insts : (add_indom_by_name hp r ip name insts).1.1 = ROk <->
  free_indom r name /\ name <> [] /\ Forall (fun i => zlen i <= 256) insts.
Proof.
  unfold add_indom_by_name. destruct (HasInstanceDomain r name) eqn:Ed.
  { split; [done|]. intros ([_ H] & _). apply has_indom_none in H. congruence. }
  pose proof (new_indom_iff name insts []) as HI. destruct (new_indom name insts []) as [d|] eqn:En.
  - destruct HI as [HI _]. destruct (HI ltac:(eauto)) as (N & _ & F). pose proof (add_indom_iff r ip d) as HA. destruct (new_indom_spec _ _ _ _ En) as (<- & _).
    destruct (add_indom r ip d) as [r'|]; cbn; [split; [|auto]; intros _; split; [apply HA; eauto|auto]|]. split; [done|]. intros (H & _). apply HA in H as [? ?]. done.
  - cbn. split; [done|]. intros (_ & N & F). destruct HI as [_ HI]. destruct HI as [? ?]; [|done]. split; [exact N|]. split; [cbn; lia|exact F].
Qed.
Lemma add_by_name_effect hp r ip name insts hp' r' : add_indom_by_name hp r ip name insts = (ROk, hp', r') ->
  exists d, new_indom name insts [] = Some d /\ hp' = mkHeap (<[ip := d]> (h_indoms hp)) (h_metrics hp) /\
    r_indoms r' = <[name := ip]> (r_indoms r) /\ r_metrics r' = r_metrics r /\ r_mapped r' = false /\ r_mapped r = false.
Proof.
  unfold add_indom_by_name. intros H. destruct (HasInstanceDomain r name) eqn:Ed; [done|]. destruct (new_indom name insts []) as [d|] eqn:En; [|done].
  destruct (add_indom r ip d) as [r2|] eqn:Ea; [|done]. injection H as <- <-. destruct (new_indom_spec _ _ _ _ En) as (E & _). exists d.
  destruct (add_indom_effect _ _ _ _ Ea) as (H1 & H2 & H3). rewrite E in H1. split_and!; auto. pose proof (add_indom_iff r ip d) as [K _]. by destruct (K ltac:(eauto)).
Qed.

(** A metric given by a name without instances. *)
Lemma add_single_iff hp r mp name val t s u : (add_singleton_by_string hp r mp name val t s u).1.1 = ROk <->
  free_metric r name /\ acceptable name [] /\ exists v, val = AVal v /\ IsCompatible t v = true.
Proof.
  unfold add_singleton_by_string. pose proof (new_single_iff (match val with AVal v => v | AInst _ => VOther end) name t s u [] MSingleton) as HN.
  change (_ ← _; _) with (NewPCPSingletonMetric (match val with AVal v => v | AInst _ => VOther end) name t s u []) in HN.
  destruct (NewPCPSingletonMetric _ name t s u []) as [m|] eqn:Em.
  - destruct (new_single_described _ name t s u [] MSingleton m Em) as ((Hn & _) & _ & Hv & _). destruct HN as [HN _]. destruct (HN ltac:(eauto)) as [A1 A2].
    pose proof (add_metric_iff hp r mp m) as HA. rewrite Hn in HA. assert (forall ip, m_indom m = Some ip -> is_Some (h_indoms hp !! ip)) as Hd.
    { intros ip Hip. unfold NewPCPSingletonMetric, new_single in Em. repeat (case_match; try discriminate). injection Em as <-. done. }
    specialize (HA Hd). assert (exists v, val = AVal v /\ IsCompatible t v = true) as HV. { destruct val as [v|]; [eauto|done]. }
    destruct (add_metric hp r mp m) as [[] r']; cbn in *; split; intros K; try done; (try (split_and!; auto; by apply HA)); exfalso; destruct K as (K & _); apply HA in K; done.
  - cbn. split; [done|]. intros (_ & A & v & -> & Hc). destruct HN as [_ HN]. destruct HN as [? ?]; done.
Qed.
Lemma add_single_effect hp r mp name val t s u hp' r' : add_singleton_by_string hp r mp name val t s u = (ROk, hp', r') ->
  exists v m, val = AVal v /\ described m name [] t s u /\ m_kind m = MSingleton /\ m_val m = Some (resolve t v) /\ no_closures m /\
    hp' = mkHeap (h_indoms hp) (<[mp := m]> (h_metrics hp)) /\ r_metrics r' = <[name := mp]> (r_metrics r) /\ r_indoms r' = r_indoms r.
Proof.
  unfold add_singleton_by_string. intros H. destruct (NewPCPSingletonMetric _ name t s u []) as [m|] eqn:Em; [|done].
  destruct (add_metric hp r mp m) as [[] r2] eqn:Ea; simplify_eq. destruct (new_single_described _ name t s u [] MSingleton m Em) as (D & K & V & C).
  destruct val as [v|vals]; [|exfalso; unfold NewPCPSingletonMetric, new_single in Em; repeat (case_match; try discriminate)].
  exists v, m. destruct (add_metric_effect _ _ _ _ _ Ea) as (E1 & E2 & _). destruct D as (Hn & D). rewrite Hn in E1. split_and!; auto; [done|].
  rewrite E2. unfold with_domain_of. assert (m_indom m = None) as ->; [|done].
  unfold NewPCPSingletonMetric, new_single in Em. repeat (case_match; try discriminate). injection Em as <-. done.
Qed.

(** A metric given by a name with instances. *)
Lemma add_with_iff hp r mp ip d name vals t s u ord : h_indoms hp !! ip = Some d -> ord ≡ₚ (map_to_list (id_insts d)).*1 ->
  (add_instance_with hp r mp ip name vals t s u ord).1.1 = ROk <->
  free_metric r name /\ acceptable name [] /\ dom vals = dom (id_insts d) /\ forall i v, vals !! i = Some v -> IsCompatible t v = true.
Proof.
  intros Hd Ho. unfold add_instance_with. rewrite Hd. destruct (inst_metric_spec vals name ip d t s u [] MInstance ord Ho) as [S1 S2].
  change (_ ← _; _) with (NewPCPInstanceMetric vals name ip d t s u [] ord) in S1. change (_ ← _; _) with (NewPCPInstanceMetric vals name ip d t s u [] ord) in S2.
  destruct (NewPCPInstanceMetric vals name ip d t s u [] ord) as [m|].
  - destruct (S2 m eq_refl) as ((Hn & _) & _ & Hi & _). destruct S1 as [S1 _]. destruct (S1 ltac:(eauto)) as (A1 & A2 & A3).
    pose proof (add_metric_iff hp r mp m) as HA. rewrite Hn in HA. assert (forall i, m_indom m = Some i -> is_Some (h_indoms hp !! i)) as HD.
    { intros i Hip. rewrite Hi in Hip. injection Hip as <-. eauto. }
    specialize (HA HD). destruct (add_metric hp r mp m) as [[] r']; cbn in *; split; intros K; try done; (try (split_and!; auto; by apply HA)); exfalso; destruct K as (K & _); apply HA in K; done.
  - cbn. split; [done|]. intros (_ & A). apply S1 in A as [? ?]. done.
Qed.
Lemma add_with_effect hp r mp ip d name vals t s u ord hp' r' : h_indoms hp !! ip = Some d -> ord ≡ₚ (map_to_list (id_insts d)).*1 ->
  add_instance_with hp r mp ip name vals t s u ord = (ROk, hp', r') ->
  exists m, described m name [] t s u /\ m_kind m = MInstance /\ m_indom m = Some ip /\ (forall i, val_at m (Some i) = resolve t <$> vals !! i) /\ no_closures m /\
    hp' = mkHeap (h_indoms hp) (<[mp := m]> (h_metrics hp)) /\ r_metrics r' = <[name := mp]> (r_metrics r) /\
    (is_Some (r_indoms r !! id_name d) -> r_indoms r' = r_indoms r).
Proof.
  intros Hd Ho. unfold add_instance_with. rewrite Hd. destruct (inst_metric_spec vals name ip d t s u [] MInstance ord Ho) as [_ S2].
  change (_ ← _; _) with (NewPCPInstanceMetric vals name ip d t s u [] ord) in S2.
  destruct (NewPCPInstanceMetric vals name ip d t s u [] ord) as [m|]; [|done]. destruct (add_metric hp r mp m) as [[] r2] eqn:Ea; intros K; simplify_eq.
  destruct (S2 m eq_refl) as (D & H1 & H2 & H3 & H4). exists m. destruct (add_metric_effect _ _ _ _ _ Ea) as (E1 & E2 & _). destruct D as (Hn & D). rewrite Hn in E1.
  split_and!; auto; [done|]. intros [x Hx]. rewrite E2. unfold with_domain_of. by rewrite H2, Hd, Hx.
Qed.

(** Specification: the domain of name [dn] with instances [l] is there already, or can be made; [has n] says whether it has instance [n]. *)
Definition domain_for (hp : heap) (r : registry) (dn : gostring) (l : list gostring) (has : gostring -> Prop) : Prop :=
  (exists ip d, r_indoms r !! dn = Some ip /\ h_indoms hp !! ip = Some d /\ zlen l = Z.of_nat (size (id_insts d)) /\ (forall n, n ∈ l -> is_Some (id_insts d !! n)) /\
     forall n, has n <-> is_Some (id_insts d !! n)) \/
  (r_indoms r !! dn = None /\ dn <> [] /\ Forall (fun i => zlen i <= 256) l /\ forall n, has n <-> n ∈ l).

Lemma dom_is {A B : Type} (m1 : gmap gostring A) (m2 : gmap gostring B) : dom m1 = dom m2 <-> forall n, is_Some (m1 !! n) <-> is_Some (m2 !! n).
Proof. rewrite set_eq. by setoid_rewrite elem_of_dom. Qed.

Lemma add_instance_iff hp r mp ip name val dn l t s u ord : reg_ok hp r -> by_string_ord hp r dn (Some l) ord ->
  (add_instance_by_string hp r mp ip name val dn l t s u ord).1.1 = ROk <->
  free_metric r name /\ acceptable name [] /\ exists vals, val = AInst vals /\ (forall i v, vals !! i = Some v -> IsCompatible t v = true) /\
    domain_for hp r dn l (fun n => is_Some (vals !! n)).
Proof.
  intros RO Ho. unfold add_instance_by_string, domain_for. destruct val as [v|vals]; [cbn; split; [done|intros (_ & _ & ? & ? & _); done]|].
  cbn in Ho. destruct (r_indoms r !! dn) as [ip0|] eqn:Ei.
  - destruct (ro_indoms _ _ RO _ _ Ei) as (d & Hd & Hn). rewrite Hd. pose proof (add_with_iff hp r mp ip0 d name vals t s u ord Hd (Ho d Hd)) as HW.
    pose proof (match_instances_spec d l) as HM. destruct (match_instances d l).
    + etransitivity; [exact HW|]. destruct HM as [HM _]. destruct (HM eq_refl) as [M1 M2]. rewrite dom_is. split.
      * intros (A1 & A2 & A3 & A4). split_and!; auto. exists vals. split_and!; auto. left. exists ip0, d. split_and!; auto.
      * intros (A1 & A2 & x & Ex & A4 & [(ip1 & d1 & E1 & E2 & _ & _ & E3)|(E & _)]); [|done]. injection Ex as <-. injection E1 as <-. rewrite Hd in E2. injection E2 as <-. auto.
    + cbn. split; [done|]. intros (A1 & A2 & x & Ex & A4 & [(ip1 & d1 & E1 & E2 & E3 & E4 & E5)|(E & _)]); [|done]. injection E1 as <-. rewrite Hd in E2. injection E2 as <-.
      destruct HM as [_ HM]. discriminate HM. auto.
  - pose proof (add_by_name_iff hp r ip dn l) as HB. destruct (add_indom_by_name hp r ip dn l) as [[o hp1] r1] eqn:E1.
    assert (forall x, o <> ROk -> (x : Prop) -> (o = ROk <-> free_metric r name /\ acceptable name [] /\ exists vs, AInst vals = AInst vs /\ (forall i v, vs !! i = Some v -> IsCompatible t v = true) /\
      ((exists ip d, @None nat = Some ip /\ h_indoms hp !! ip = Some d /\ zlen l = Z.of_nat (size (id_insts d)) /\ (forall n, n ∈ l -> is_Some (id_insts d !! n)) /\ forall n, is_Some (vs !! n) <-> is_Some (id_insts d !! n)) \/
       (@None nat = None /\ dn <> [] /\ Forall (fun i => zlen i <= 256) l /\ forall n, is_Some (vs !! n) <-> n ∈ l)))) as G.
    { intros x No _. split; [done|]. intros (A1 & A2 & x' & Ex & A4 & [(? & ? & ? & _)|(_ & B1 & B2 & B3)]); [done|]. apply HB. cbn. destruct A1. unfold free_indom. auto. }
    destruct o; [|exact (G True ltac:(done) I)..]. clear G. destruct (add_by_name_effect _ _ _ _ _ _ _ E1) as (d & En & -> & D1 & D2 & D3 & D4).
    destruct HB as [HB _]. destruct (HB eq_refl) as (B1 & B2 & B3). pose proof (new_indom_spec _ _ _ _ En) as (_ & _ & HI).
    assert (h_indoms (mkHeap (<[ip := d]> (h_indoms hp)) (h_metrics hp)) !! ip = Some d) as Hd by apply lookup_insert.
    etransitivity; [exact (add_with_iff _ r1 mp ip d name vals t s u ord Hd (Ho d En))|]. unfold free_metric. rewrite D2, D3, D4, dom_is. setoid_rewrite HI. split.
    + intros (A1 & A2 & A3 & A4). split_and!; auto; [tauto|]. exists vals. split_and!; auto.
    + intros (A1 & A2 & x & Ex & A4 & [(? & ? & ? & _)|(_ & _ & _ & E)]); [done|]. injection Ex as <-. split_and!; auto. tauto.
Qed.
Lemma add_instance_effect hp r mp ip name val dn l t s u ord hp' r' : reg_ok hp r -> by_string_ord hp r dn (Some l) ord ->
  add_instance_by_string hp r mp ip name val dn l t s u ord = (ROk, hp', r') ->
  exists vals m ip' d, val = AInst vals /\ described m name [] t s u /\ m_kind m = MInstance /\ m_indom m = Some ip' /\ (forall i, val_at m (Some i) = resolve t <$> vals !! i) /\ no_closures m /\
    h_metrics hp' = <[mp := m]> (h_metrics hp) /\ h_indoms hp' !! ip' = Some d /\ r_metrics r' = <[name := mp]> (r_metrics r) /\
    (forall n, is_Some (id_insts d !! n) <-> is_Some (vals !! n)) /\
    match r_indoms r !! dn with
    | Some x => ip' = x /\ h_indoms hp' = h_indoms hp /\ r_indoms r' = r_indoms r
    | None => ip' = ip /\ h_indoms hp' = <[ip := d]> (h_indoms hp) /\ r_indoms r' = <[dn := ip]> (r_indoms r) /\ id_name d = dn /\ id_short d = [] /\ id_long d = []
    end.
Proof.
  intros RO Ho H. assert ((add_instance_by_string hp r mp ip name val dn l t s u ord).1.1 = ROk) as HK by (by rewrite H). 
  apply (add_instance_iff _ _ _ _ _ _ _ _ _ _ _ _ RO Ho) in HK as (_ & _ & vals & -> & _ & HD). unfold add_instance_by_string in H. cbn in Ho. unfold domain_for in HD.
  destruct (r_indoms r !! dn) as [ip0|] eqn:Ei.
  - destruct (ro_indoms _ _ RO _ _ Ei) as (d & Hd & Hn). rewrite Hd in H. destruct (match_instances d l); [|done].
    destruct (add_with_effect _ _ _ _ _ _ _ _ _ _ _ _ _ Hd (Ho d Hd) H) as (m & M1 & M2 & M3 & M4 & M5 & -> & M6 & M7). exists vals, m, ip0, d.
    rewrite Hn, Ei in M7. specialize (M7 ltac:(eauto)). split_and!; auto.
    destruct HD as [(ip1 & d1 & E1 & E2 & _ & _ & E3)|(E & _)]; [|done]. injection E1 as <-. rewrite Hd in E2. injection E2 as <-. intros n. by rewrite E3.
  - destruct (add_indom_by_name hp r ip dn l) as [[o hp1] r1] eqn:E1. destruct o; try done. destruct (add_by_name_effect _ _ _ _ _ _ _ E1) as (d & En & -> & D1 & D2 & D3 & D4).
    assert (h_indoms (mkHeap (<[ip := d]> (h_indoms hp)) (h_metrics hp)) !! ip = Some d) as Hd by apply lookup_insert.
    destruct (new_indom_spec _ _ _ _ En) as (N1 & N2 & HI). cbn in N2. injection N2 as N2 N3.
    destruct (add_with_effect _ _ _ _ _ _ _ _ _ _ _ _ _ Hd (Ho d En) H) as (m & M1 & M2 & M3 & M4 & M5 & -> & M6 & M7). exists vals, m, ip, d.
    rewrite D2 in M6. split_and!; auto.
    + destruct HD as [(? & ? & ? & _)|(_ & _ & _ & E)]; [done|]. intros n. by rewrite HI, E.
    + rewrite M7; [exact D1|]. rewrite N1, D1, lookup_insert. eauto.
Qed.
