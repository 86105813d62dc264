(** C63: the maps of a registry and goroutines that use them at once. *)
From Verif Require Import Base GoVal MetricType Indom Metrics Registry Locks RegConc RegMaps RegMapsFacts.
From stdpp Require Import relations.
Local Open Scope Z_scope.

(** Two goroutines are about to access one map of the registry, and one of them to write it: nothing orders the two
    accesses, and the Go runtime may end the process. *)
Definition map_race (m : xmach) (i j : nat) (ci cj : xcall) (x : rmap) : Prop :=
  i <> j /\ accesses m i ci x true /\ exists wr, accesses m j cj x wr.

(** The claim "no registration, query or Start makes two goroutines race for a map" is false in two ways. Start walks
    over both maps without their locks (/repo/client.go:382, 478) while another goroutine registers. *)
Definition rm_metric (n : gostring) : metric := mkMetric (mkDesc 7 n Uint32Type CounterSemantics 0x100000 [] []) MSingleton (BSingle (mkCell (VUint32 0) None)).
Definition rm_heap : heap := mkHeap ∅ {[1%nat := rm_metric (str "a.b")]}.
Theorem C63_start_refuted : exists m,
  rtc xstep (xm_start rm_heap new_registry [[QStart]; [QReg (RegM 1)]]) m /\ map_race m 1 0 (QReg (RegM 1)) QStart TMet.
Proof.
  destruct (follow_accesses (replicate 10 0%nat ++ replicate 7 1%nat) (xm_start rm_heap new_registry [[QStart]; [QReg (RegM 1)]]) 1 0
    (QReg (RegM 1)) (TMet, true) QStart (TMet, false)) as (m & R & A & B); [vm_compute; reflexivity|].
  exists m. split; [exact R|]. split; [discriminate|]. split; [exact A|]. exists false. exact B.
Qed.

(** AddMetricByString looks its domain up without the lock (/repo/registry.go:302, 303) while another goroutine
    registers a domain. *)
Definition rm_vals : sarg := AInst {[str "sda" := VInt 1]}.
Definition rm_string : xcall := QByString 1 5 (str "disk.io") (str "disk") (Some [str "sda"]) rm_vals Int64Type CounterSemantics 0x100000 [str "sda"].
Definition rm_name : xcall := QByName 2 (str "net") [str "eth0"].
Definition rm_calls : list (list xcall) := [[QByName 1 (str "disk") [str "sda"]; rm_string]; [rm_name]].
Theorem C63_by_string_refuted : exists m, rtc xstep (xm_start (mkHeap ∅ ∅) new_registry rm_calls) m /\ map_race m 1 0 rm_name rm_string TDom.
Proof.
  destruct (follow_accesses (replicate 23 0%nat ++ replicate 11 1%nat) (xm_start (mkHeap ∅ ∅) new_registry rm_calls) 1 0
    rm_name (TDom, true) rm_string (TDom, false)) as (m & R & A & B); [vm_compute; reflexivity|].
  exists m. split; [exact R|]. split; [discriminate|]. split; [exact A|]. exists false. exact B.
Qed.

(** In every execution of any goroutines making any of the calls, nothing else happens: the second access is a read,
    and it is one of Start's walks, or the lookup of AddMetricByString given instances. *)
Theorem C63_maps_partial hp r css m i j ci cj x : rtc xstep (xm_start hp r css) m -> map_race m i j ci cj x ->
  accesses m j cj x false /\ (cj = QStart \/ (x = TDom /\ exists mp ip name iname l val t s u order, cj = QByString mp ip name iname (Some l) val t s u order)).
Proof.
  intros R (N & (di & pi & li & Hi & Ai) & wr & dj & pj & lj & Hj & Aj).
  destruct (conflict_unlocked hp r css m i j _ _ ci cj pi pj x wr R N Hi eq_refl Ai Hj eq_refl Aj) as [-> U].
  split; [by exists dj, pj, lj|]. pose proof (qinv_run _ _ _ _ R j _ cj pj Hj eq_refl) as Q. destruct pj; try discriminate U; inversion Q; subst.
  - right. cbn in Aj. injection Aj as <-. split; [done|]. destruct cj as [| | | | | |mp ip name iname [l|] val t s u order|]; try discriminate. do 10 eexists. reflexivity.
  - left. destruct cj; try discriminate. done.
Qed.

(** So goroutines that neither call Start nor register by a string with instances never race, whatever they register
    and ask for, and however they take turns. *)
Theorem C63_no_race hp r css m i j ci cj x :
  (forall l c, l ∈ css -> c ∈ l -> c <> QStart /\ forall mp ip name iname ins val t s u order, c <> QByString mp ip name iname (Some ins) val t s u order) ->
  rtc xstep (xm_start hp r css) m -> ~ map_race m i j ci cj x.
Proof.
  intros H R C. destruct (C63_maps_partial _ _ _ _ _ _ _ _ _ R C) as [(d & p & l & Hj & _) K]. destruct (given_run _ _ _ _ R _ _ _ _ Hj) as (l0 & G1 & _ & G3).
  destruct (H l0 cj (elem_of_list_lookup_2 _ _ _ G1) G3) as [H1 H2]. destruct K as [->|(_ & mp & ip & name & iname & ins & val & t & s & u & order & ->)]; [done|]. by eapply H2.
Qed.
(** Two goroutines are never about to write one map, whatever calls they make. *)
Theorem C63_two_writers hp r css m i j ci cj x : rtc xstep (xm_start hp r css) m -> i <> j -> accesses m i ci x true -> ~ accesses m j cj x true.
Proof.
  intros R N (di & pi & li & Hi & Ai) (dj & pj & lj & Hj & Aj). destruct (conflict_unlocked hp r css m i j _ _ ci cj pi pj x true R N Hi eq_refl Ai Hj eq_refl Aj) as [E _]. discriminate.
Qed.
Definition rm_quiet : list (list xcall) := [[QByName 1 (str "disk") [str "sda"]; QHasM (str "a.b")]; [rm_name; QLenD]; [QReg (RegM 1)];
  [QByString 3 4 (str "cpu.load") [] None (AVal (VInt 5)) Int64Type CounterSemantics 0x100000 []]].
Example C63_ex : (forall l c, l ∈ rm_quiet -> c ∈ l -> c <> QStart /\ forall mp ip name iname ins val t s u order, c <> QByString mp ip name iname (Some ins) val t s u order) /\
  exists m, rtc xstep (xm_start rm_heap new_registry rm_quiet) m /\ accesses m 1 rm_name TDom true /\ accesses m 2 (QReg (RegM 1)) TMet true.
Proof.
  split.
  - intros l c Hl Hc. unfold rm_quiet in Hl. repeat (apply elem_of_cons in Hl as [->|Hl]; [repeat (apply elem_of_cons in Hc as [->|Hc]; [by split|]); by apply elem_of_nil in Hc|]). by apply elem_of_nil in Hl.
  - destruct (follow_accesses (replicate 11 1%nat ++ replicate 7 2%nat) (xm_start rm_heap new_registry rm_quiet) 1 2
      rm_name (TDom, true) (QReg (RegM 1)) (TMet, true)) as (m & R & A & B); [vm_compute; reflexivity|]. exists m. auto.
Qed.

Print Assumptions C63_start_refuted.
Print Assumptions C63_by_string_refuted.
Print Assumptions C63_maps_partial.
Print Assumptions C63_no_race.
Print Assumptions C63_two_writers.
Print Assumptions C63_ex.
