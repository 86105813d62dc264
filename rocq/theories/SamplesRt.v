(** The program runtime of /repo/examples runs to the end. *)
From Verif Require Import Base BaseFacts Floats GoVal MetricType ByteWriter Hash Units Indom Metrics Registry Prog
  Client Mmvdump View RegInv World OpRuns RegFacts WorldInv Sync FloatFacts ValueFacts MetricFacts VectorFacts SyncView Life Parse Example Samples SamplesFacts SamplesRun.

(** ** runtime *)
Definition cp_d : indom := get no_indom (new_indom (str "CPU Metrics") cpu_names []).
Definition me_d : indom := get no_indom (new_indom (str "Memory Metrics") mem_names []).
Definition cp_m : metric := get no_metric (NewPCPInstanceMetric (all_zero cpu_names) (str "cpu") 1 cp_d Int64Type CounterSemantics OneUnit [] (map_to_list (id_insts cp_d)).*1).
Definition me_m : metric := get no_metric (NewPCPInstanceMetric (all_zero mem_names) (str "mem") 2 me_d Uint64Type CounterSemantics OneUnit [] (map_to_list (id_insts me_d)).*1).
Definition rt_hp : heap := mkHeap (<[2%nat := me_d]> (<[1%nat := cp_d]> (h_indoms (w_heap w_init)))) (<[2%nat := me_m]> (<[1%nat := cp_m]> ∅)).
Definition rt_r1 : registry := (add_metric rt_hp new_registry 1 cp_m).2.
Definition rt_r : registry := (add_metric rt_hp rt_r1 2 me_m).2.
(** What the last of [n] rounds measured, 0 before the first. *)
Definition last_of (f : nat -> Z) (n : nat) : Z := match n with O => 0 | S k => f k end.
Definition cpu_val (cgo gor : nat -> Z) (n : nat) (i : gostring) : Z := if decide (i = str "CGoCalls") then last_of cgo n else last_of gor n.
Definition mem_val (mem : nat -> gostring -> Z) (n : nat) (i : gostring) : Z := if decide (i = str "Lookups") then 0 else last_of (fun k => mem k i) n.

Lemma cp_new : new_indom (str "CPU Metrics") cpu_names [] = Some cp_d.
Proof. apply (get_some no_indom). vm_compute. reflexivity. Qed.
Lemma me_new : new_indom (str "Memory Metrics") mem_names [] = Some me_d.
Proof. apply (get_some no_indom). vm_compute. reflexivity. Qed.
Lemma cp_nodup : NoDup cpu_names.
Proof. apply (bool_decide_eq_true_1 _). vm_compute. reflexivity. Qed.
Lemma me_nodup : NoDup mem_names.
Proof. apply (bool_decide_eq_true_1 _). vm_compute. reflexivity. Qed.
Lemma all_of {A} (f : A -> bool) l : forallb f l = true -> forall i, i ∈ l -> f i = true.
Proof. rewrite forallb_forall. intros H i Hi. apply H. by apply elem_of_list_In. Qed.
Lemma cp_has i : i ∈ cpu_names -> has_instance cp_d i = true.
Proof. apply (all_of (has_instance cp_d)). vm_compute. reflexivity. Qed.
Lemma me_has i : i ∈ mem_names -> has_instance me_d i = true.
Proof. apply (all_of (has_instance me_d)). vm_compute. reflexivity. Qed.
Definition is_lookups_or_updated (i : gostring) : bool := bool_decide (i = str "Lookups") || bool_decide (i ∈ mem_updated).
Definition is_mem (i : gostring) : bool := bool_decide (i ∈ mem_names).
Lemma me_upd i : i ∈ mem_names <-> i = str "Lookups" \/ i ∈ mem_updated.
Proof.
  split.
  - intros H. apply (all_of is_lookups_or_updated mem_names ltac:(vm_compute; reflexivity)) in H.
    apply orb_true_iff in H as [H|H]; apply bool_decide_eq_true_1 in H; auto.
  - intros [->|H].
    + apply (bool_decide_eq_true_1 _). vm_compute. reflexivity.
    + apply (all_of is_mem mem_updated ltac:(vm_compute; reflexivity)) in H. by apply bool_decide_eq_true_1 in H.
Qed.
Lemma me_lookups : str "Lookups" ∉ mem_updated.
Proof. apply (bool_decide_eq_true_1 _). vm_compute. reflexivity. Qed.
Definition zero_at (v0 : goval) (m : metric) (i : gostring) : bool := match val_at m (Some i) with Some v => bool_decide (v = v0) | None => false end.
Lemma cp_zero i : i ∈ cpu_names -> val_at cp_m (Some i) = Some (VInt64 0).
Proof.
  intros H. apply (all_of (zero_at (VInt64 0) cp_m) cpu_names ltac:(vm_compute; reflexivity)) in H. unfold zero_at in H. destruct (val_at _ _); [|discriminate]. apply bool_decide_eq_true_1 in H. by subst.
Qed.
Lemma me_zero i : i ∈ mem_names -> val_at me_m (Some i) = Some (VUint64 0).
Proof.
  intros H. apply (all_of (zero_at (VUint64 0) me_m) mem_names ltac:(vm_compute; reflexivity)) in H. unfold zero_at in H. destruct (val_at _ _); [|discriminate]. apply bool_decide_eq_true_1 in H. by subst.
Qed.

Section rt.
  Context (loc : gostring) (gen pid : Z).
  Definition rt_inv (f h : gostring -> Z) (w : world) : Prop :=
    running w loc (hash (str "runtime") PCPClusterIDBitLength) rt_r gen pid /\ h_indoms (w_heap w) !! 1%nat = Some cp_d /\ h_indoms (w_heap w) !! 2%nat = Some me_d /\
    (exists g, is_m w 1 (m_desc cp_m) MInstance (Some 1%nat) g /\ forall i, i ∈ cpu_names -> g (Some i) = Some (VInt64 (f i))) /\
    (exists g, is_m w 2 (m_desc me_m) MInstance (Some 2%nat) g /\ forall i, i ∈ mem_names -> g (Some i) = Some (VUint64 (h i))).
  Lemma rt_inv_ext f h f' h' w : (forall i, i ∈ cpu_names -> f i = f' i) -> (forall i, i ∈ mem_names -> h i = h' i) -> rt_inv f h w -> rt_inv f' h' w.
  Proof.
    intros F H (A & B & C & (g1 & D1 & E1) & g2 & D2 & E2). split_and!; auto; [exists g1|exists g2]; (split; [assumption|]); intros i Hi.
    - rewrite E1 by exact Hi. by rewrite F.
    - rewrite E2 by exact Hi. by rewrite H.
  Qed.
  Lemma rt_cpu w f h v z i ss (Q : world -> Prop) : rt_inv f h w -> i ∈ cpu_names -> wf_goval v -> (forall s, v = VStr s -> zlen s <= 256) -> IsCompatible Int64Type v = true -> resolve Int64Type v = VInt64 z ->
    (forall w1, rt_inv (fun j => if decide (j = i) then z else f j) h w1 -> surely w1 ss Q) -> surely w (set_to 1 v i :: ss) Q.
  Proof.
    intros (RU & D1 & D2 & (g1 & M1 & G1) & g2 & M2 & G2) Hi Hw Hs Hc Hr H.
    eapply (s_set_inst _ _ _ _ _ _ 1 _ RU) with (mst := true) (v := v) (x := VInt64 z) (i := i); [apply reg1; vm_compute; reflexivity|exact M1|exact D1|reflexivity|by apply cp_has|exact Hw|exact Hs|exact Hc|exact Hr|by apply plain_ok|].
    intros w1 RU1 Hd K N. apply H. unfold rt_inv. rewrite Hd. split_and!; auto.
    - eexists. split; [exact N|]. intros j Hj. unfold upd1. destruct (decide (j = i)) as [->|Hn]; [by rewrite decide_True|]. rewrite decide_False by congruence. by apply G1.
    - exists g2. split; [|exact G2]. apply K; [discriminate|exact M2].
  Qed.
  Lemma rt_mem w f h z i ss (Q : world -> Prop) : rt_inv f h w -> i ∈ mem_names -> in_unsigned 64 z ->
    (forall w1, rt_inv f (fun j => if decide (j = i) then z else h j) w1 -> surely w1 ss Q) -> surely w (set_to 2 (VUint64 z) i :: ss) Q.
  Proof.
    intros (RU & D1 & D2 & (g1 & M1 & G1) & g2 & M2 & G2) Hi Hz H.
    assert (registered rt_r 2) as Rg. { exists (str "mem"). vm_compute. reflexivity. }
    eapply (s_set_inst _ _ _ _ _ _ 2 _ RU Rg) with (mst := true) (v := VUint64 z) (x := VUint64 z) (i := i); [exact M2|exact D2|reflexivity|by apply me_has|exact Hz|discriminate|reflexivity|reflexivity|by apply plain_ok|].
    intros w1 RU1 Hd K N. apply H. unfold rt_inv. rewrite Hd. split_and!; auto.
    - exists g1. split; [|exact G1]. apply K; [discriminate|exact M1].
    - eexists. split; [exact N|]. intros j Hj. unfold upd1. destruct (decide (j = i)) as [->|Hn]; [by rewrite decide_True|]. rewrite decide_False by congruence. by apply G2.
  Qed.
  Lemma rt_mems (x : gostring -> Z) l : (forall i, in_unsigned 64 (x i)) -> (forall i, i ∈ l -> i ∈ mem_names) -> forall w f h (Q : world -> Prop), rt_inv f h w ->
    (forall w1, rt_inv f (fun j => if decide (j ∈ l) then x j else h j) w1 -> Q w1) -> surely w (map (fun i => set_to 2 (VUint64 (x i)) i) l) Q.
  Proof.
    intros Hx. induction l as [|i l IH]; intros Hl w f h Q I H.
    - apply surely_nil. apply H. revert I. apply rt_inv_ext; [done|]. intros j _. rewrite decide_False; [done|]. apply not_elem_of_nil.
    - cbn [map]. eapply rt_mem; [exact I|apply Hl; left|apply Hx|]. intros w1 I1. eapply IH; [intros; apply Hl; by right|exact I1|]. intros w2 I2. apply H. revert I2. apply rt_inv_ext; [done|].
      intros j _. destruct (decide (j ∈ l)) as [E|E].
      + rewrite decide_True; [done|by right].
      + destruct (decide (j = i)) as [->|N]; [rewrite decide_True; [done|left]|]. rewrite decide_False; [done|]. rewrite elem_of_cons. tauto.
  Qed.
  Lemma rt_runs o1 o2 cgo gor mem n : o1 ≡ₚ cpu_names -> o2 ≡ₚ mem_names -> (forall k, in_signed 64 (cgo k)) -> (forall k, in_signed 64 (gor k)) -> (forall k i, in_unsigned 64 (mem k i)) ->
    surely w_init (runtime_stats loc gen pid o1 o2 cgo gor mem n) (rt_inv (cpu_val cgo gor n) (mem_val mem n)).
  Proof.
    intros P1 P2 HC HG HM. unfold runtime_stats. rewrite cp_new, me_new. cbn [app mbind option_bind].
    eapply s_indom; [exact okw_init|reflexivity|exact cp_new|]. intros O1.
    eapply (s_new_inst _ 1 1 cp_d) with (ip0 := 100%nat) (m := cp_m); [exact O1|reflexivity|reflexivity|reflexivity|exact cp_new|exact cp_nodup|exact P1|apply all_zero_wf|cbv; intuition discriminate|apply get_some; vm_compute; reflexivity|]. intros O2.
    eapply s_indom; [exact O2|reflexivity|exact me_new|]. intros O2'.
    eapply (s_new_inst _ 2 2 me_d) with (ip0 := 100%nat) (m := me_m); [exact O2'|reflexivity|reflexivity|reflexivity|exact me_new|exact me_nodup|exact P2|apply all_zero_wf|cbv; intuition discriminate|apply get_some; vm_compute; reflexivity|]. intros O3.
    eapply s_client; [exact O3|reflexivity|reflexivity|]. intros O4.
    eapply s_register with (r := new_registry) (m := cp_m) (r' := rt_r1); [exact O4|reflexivity|reflexivity|vm_compute; reflexivity|]. intros O5.
    eapply s_register with (r := rt_r1) (m := me_m) (r' := rt_r); [exact O5|reflexivity|reflexivity|vm_compute; reflexivity|]. intros O6.
    eapply s_start with (r := rt_r); [exact O6|reflexivity|reflexivity|apply startableb_ok; vm_compute; reflexivity|]. clear O1 O2 O3 O4 O5 O6 O2'.
    intros w1 RU Hi Hm. pose proof (Hm 1%nat cp_m eq_refl) as M1. pose proof (Hm 2%nat me_m eq_refl) as M2. clear Hm.
    apply (surely_rounds (fun n => rt_inv (cpu_val cgo gor n) (mem_val mem n))).
    - split; [exact RU|]. rewrite Hi. split; [reflexivity|]. split; [reflexivity|]. split.
      + exists (val_at cp_m). split; [exact M1|]. intros i H. rewrite (cp_zero _ H). unfold cpu_val, last_of. by destruct (decide _).
      + exists (val_at me_m). split; [exact M2|]. intros i H. rewrite (me_zero _ H). unfold mem_val, last_of. by destruct (decide _).
    - clear w1 RU Hi M1 M2. intros k w1 I. unfold runtime_round. cbn [app].
      eapply rt_cpu; [exact I|left|exact (HC k)|discriminate|reflexivity|reflexivity|]. clear I w1. intros w1 I.
      eapply rt_cpu; [exact I|right; left|exact (HG k)|discriminate|reflexivity|reflexivity|]. clear I w1. intros w1 I.
      eapply (rt_mems (mem k)); [apply HM|intros i H; apply me_upd; by right|exact I|]. clear I w1. intros w1. apply rt_inv_ext.
      + intros i H. unfold cpu_val, last_of. unfold cpu_names in H. apply elem_of_cons in H as [->|H].
        * rewrite (decide_False (P := str "CGoCalls" = str "Goroutines")) by (vm_compute; discriminate). by rewrite !decide_True.
        * apply elem_of_list_singleton in H as ->. rewrite decide_True by reflexivity. by rewrite (decide_False (P := str "Goroutines" = str "CGoCalls")) by (vm_compute; discriminate).
      + intros i H. unfold mem_val, last_of. apply me_upd in H as [->|H].
        * rewrite decide_False by exact me_lookups. rewrite !decide_True by reflexivity. done.
        * rewrite decide_True by exact H. rewrite decide_False; [done|]. intros ->. by apply me_lookups.
  Qed.
End rt.
