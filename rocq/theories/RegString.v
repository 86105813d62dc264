(** AddMetricByString from the string on, /repo/registry.go:322-333, and what a
    successful call puts into the registry. *)
From Verif Require Import Base BaseFacts Indom Metrics Registry World RegInv RegFacts RegSteps WorldInv Parse.

Definition AddMetricByString (isLN : Z -> bool) (hp : heap) (r : registry) (mp ip : nat) (s : gostring)
    (val : sarg) (t sem u : Z) (ord : list gostring) : outcome * heap * registry :=
  match parse_string isLN s with
  | None => (RErr, hp, r)
  | Some (name, indom, insts) => add_by_string hp r mp ip name indom insts val t sem u ord
  end.

Lemma add_metric_puts hp r mp m r' : add_metric hp r mp m = (ROk, r') -> r_metrics r' !! md_name (m_desc m) = Some mp.
Proof.
  unfold add_metric, add_metric_raw. intros H. repeat (case_match; simplify_eq); cbn; apply lookup_insert.
Qed.

Lemma add_indom_keeps r ip d r' n x : add_indom r ip d = Some r' -> r_indoms r !! n = Some x -> r_indoms r' !! n = Some x.
Proof.
  unfold add_indom, HasInstanceDomain. intros H E. repeat (case_match; simplify_eq). cbn.
  rewrite lookup_insert_ne; [done|]. intros <-. rewrite E in *. rewrite bool_decide_eq_false in *. eauto.
Qed.

Lemma add_metric_indoms hp r mp m r' n x : add_metric hp r mp m = (ROk, r') -> r_indoms r !! n = Some x -> r_indoms r' !! n = Some x.
Proof.
  unfold add_metric, add_metric_raw. intros H E. repeat (case_match; simplify_eq); cbn; solve [done | by eapply add_indom_keeps].
Qed.

(** A metric registered by a string with instances. *)
Lemma add_instance_puts hp r mp ip name val d l t s u ord hp' r' : reg_ok hp r ->
  add_instance_by_string hp r mp ip name val d l t s u ord = (ROk, hp', r') ->
  r_metrics r' !! name = Some mp /\ exists m ip' dom, h_metrics hp' !! mp = Some m /\ md_name (m_desc m) = name /\
    m_indom m = Some ip' /\ r_indoms r' !! d = Some ip' /\ h_indoms hp' !! ip' = Some dom /\ id_name dom = d /\
    (NoDup l -> forall n, n ∈ l <-> is_Some (id_insts dom !! n)).
Proof.
  intros RO H. unfold add_instance_by_string in H. destruct val as [v|vals]; [done|].
  assert (forall hp1 r1 ip1 dom, add_instance_with hp1 r1 mp ip1 name vals t s u ord = (ROk, hp', r') ->
    h_indoms hp1 !! ip1 = Some dom -> id_name dom = d -> r_indoms r1 !! d = Some ip1 -> (NoDup l -> forall n, n ∈ l <-> is_Some (id_insts dom !! n)) ->
    r_metrics r' !! name = Some mp /\ exists m ip' dom, h_metrics hp' !! mp = Some m /\ md_name (m_desc m) = name /\
    m_indom m = Some ip' /\ r_indoms r' !! d = Some ip' /\ h_indoms hp' !! ip' = Some dom /\ id_name dom = d /\
    (NoDup l -> forall n, n ∈ l <-> is_Some (id_insts dom !! n))) as G.
  { clear H. intros hp1 r1 ip1 dom H Hd Hn Hi Hl. unfold add_instance_with in H. rewrite Hd in H.
    destruct (NewPCPInstanceMetric _ _ _ _ _ _ _ _ _) as [m|] eqn:Em; [|done].
    destruct (add_metric hp1 r1 mp m) as [o r2] eqn:Ea. destruct o; simplify_eq.
    assert (md_name (m_desc m) = name /\ m_indom m = Some ip1) as [<- Hm].
    { unfold NewPCPInstanceMetric, new_desc, new_inst_body in Em. repeat case_match; try discriminate; simplify_eq; split; reflexivity. }
    split; [by eapply add_metric_puts|]. exists m, ip1, dom. cbn. rewrite lookup_insert. split_and!; auto. by eapply add_metric_indoms. }
  destruct (r_indoms r !! d) as [ip0|] eqn:Ei.
  - destruct (ro_indoms _ _ RO _ _ Ei) as (dom & Hd & Hn). rewrite Hd in H.
    destruct (match_instances dom l) eqn:Em; [|done]. eapply G; eauto. intros ND. by apply match_nodup.
  - destruct (add_indom_by_name hp r ip d l) as [[o hp1] r1] eqn:E1. destruct o; try done.
    unfold add_indom_by_name in E1. destruct (HasInstanceDomain r d) eqn:Hh; [done|].
    destruct (new_indom d l []) as [dom|] eqn:En; [|done]. destruct (add_indom r ip dom) as [r2|] eqn:Ea; [|done]. simplify_eq.
    assert (id_name dom = d /\ (forall n, n ∈ l <-> is_Some (id_insts dom !! n))) as [Hn Hl].
    { unfold new_indom in En. destruct (bool_decide (d = [])); [done|]. destruct (2 <? zlen _); [done|].
      destruct (add_instances ∅ l) as [im|] eqn:Ei2; [|done]. simplify_eq. cbn [id_name id_insts]. split; [done|].
      apply add_instances_spec in Ei2 as (_ & _ & K). intros n. rewrite K, lookup_empty. split; [auto|]. intros [[? ?]|?]; done. }
    eapply G; [exact H| |exact Hn| |auto].
    + cbn. by rewrite lookup_insert.
    + unfold add_indom in Ea. repeat (case_match; simplify_eq). cbn. by rewrite lookup_insert.
Qed.

Lemma add_singleton_puts hp r mp name val t s u hp' r' : add_singleton_by_string hp r mp name val t s u = (ROk, hp', r') ->
  r_metrics r' !! name = Some mp /\ exists m, h_metrics hp' !! mp = Some m /\ md_name (m_desc m) = name /\ m_indom m = None.
Proof.
  unfold add_singleton_by_string. destruct (NewPCPSingletonMetric _ _ _ _ _ _) as [m|] eqn:Em; [|done].
  destruct (add_metric hp r mp m) as [o r2] eqn:Ea. destruct o; intros; simplify_eq.
  assert (md_name (m_desc m) = name /\ m_indom m = None) as [<- Hm].
  { unfold NewPCPSingletonMetric, new_desc, new_single in Em. repeat case_match; try discriminate; simplify_eq; split; reflexivity. }
  split; [by eapply add_metric_puts|]. exists m. cbn. by rewrite lookup_insert.
Qed.
