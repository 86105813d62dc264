(** C18, continued: the value of a timer against the exact elapsed time, as a real number.
    Vocabulary: [R64 v] is the real value of a double; [ns_per] (FloatErr.v) the table of nanoseconds per time unit;
    [elapsed_ns mp tr] (TimerTotal.v) sums Stop's clock reading minus Start's over [tr], from the last Reset on;
    [clocks mp tr] lists the clock readings of the Start and Stop calls on timer [mp]. *)
From Verif Require Import Base BaseFacts Floats FloatFacts FlocqFacts FloatMono FloatErr GoVal MetricType Units Indom Metrics Registry Prog Client World OpRuns RegFacts WorldInv HistFacts TimerTotal Example.
From Coq Require Import Reals.
From Flocq Require Import Core.Core.
Open Scope Z_scope.

(** The increment of one Stop is the elapsed time in the timer's unit, up to a relative error of 2^-51. *)
Theorem C18_conversion u k d : (u, k) ∈ ns_per -> - 2 ^ 63 <= d < 2 ^ 63 ->
  finite64 (timer_increment u d) /\ (Rabs (R64 (timer_increment u d) - IZR d / IZR k) <= bpow radix2 (-51) * Rabs (IZR d / IZR k))%R.
Proof.
  intros Hu Hd. destruct (timer_increment_apx u k d Hu Hd) as [F A]. split; [exact F|]. unfold apx in A.
  replace (bpow radix2 (-51)) with (4 * ulp2)%R; [exact A|]. unfold ulp2. change (-51) with (2 + -53). rewrite bpow_plus. reflexivity.
Qed.
(** After any history the value is the total elapsed time in the timer's unit, up to a relative error of 2^-52 per call. *)
Theorem C18_total w tr w' mp m t v k : reachable w -> hist w tr w' -> h_metrics (w_heap w) !! mp = Some m -> m_kind m = MTimer false t -> m_val m = Some (VF64 v) ->
  same_but_zero v f64_zero -> (md_unit (m_desc m), k) ∈ ns_per -> Z.of_nat (length tr) < 2 ^ 49 ->
  StronglySorted Z.le (clocks mp tr) -> (exists lo, Forall (fun t => lo <= t < lo + 2 ^ 63) (clocks mp tr)) ->
  exists m' v', h_metrics (w_heap w') !! mp = Some m' /\ m_val m' = Some (VF64 v') /\ finite64 v' /\
    (Rabs (R64 v' - IZR (elapsed_ns mp tr) / IZR k) <= IZR (Z.of_nat (length tr) + 2) * bpow radix2 (-52) * (IZR (elapsed_ns mp tr) / IZR k))%R.
Proof. intros R. apply timer_total, reachable_ok, R. Qed.
Lemma two_clocks mp a b x y : clocks mp [(a, CUpdate mp (OTStart x) false, ROk); (b, CUpdate mp (OTStop y) false, ROk)] = [x; y] /\
  elapsed_ns mp [(a, CUpdate mp (OTStart x) false, ROk); (b, CUpdate mp (OTStop y) false, ROk)] = y - x.
Proof. unfold clocks, elapsed_ns. cbn. rewrite !decide_True by reflexivity. cbn. auto. Qed.
(** The timer of Example.v (unit second): Start at 1 s, Stop at 3.5 s. *)
Example C18_total_ex : exists tr w', reachable exw /\ hist exw tr w' /\ h_metrics (w_heap exw) !! 4%nat = Some ex_timer /\ m_kind ex_timer = MTimer false 0 /\ m_val ex_timer = Some (VF64 f64_zero) /\
  (md_unit (m_desc ex_timer), 1000000000) ∈ ns_per /\ clocks 4 tr = [1000000000; 3500000000] /\ elapsed_ns 4 tr = 2500000000 /\
  Forall (fun t => 0 <= t < 0 + 2 ^ 63) (clocks 4 tr).
Proof.
  assert (h_metrics (w_heap exw) !! 4%nat = Some ex_timer) as Hm by (rewrite exw_metric; reflexivity).
  set (m1 := (timer_start (w_files w_init) ex_timer 1000000000).2).
  destruct (step_update exw 4 (OTStart 1000000000) ex_timer ROk (w_files exw) m1 exw_dead Hm I) as (w1 & S1 & Hm1 & _ & D1).
  { generalize (w_files exw). generalize (w_heap exw). intros. vm_compute. reflexivity. }
  destruct (step_update w1 4 (OTStop 3500000000) m1 ROk (w_files w1) (timer_stop (w_files w_init) m1 3500000000).1.2 D1 Hm1 I) as (w2 & S2 & Hm2 & _).
  { generalize (w_files w1). generalize (w_heap w1). intros. vm_compute. reflexivity. }
  eexists _, w2. split; [exact exw_reachable|]. split; [eapply hist_cons; [exact S1|]; eapply hist_cons; [exact S2|apply hist_nil]|]. split; [exact Hm|].
  destruct (two_clocks 4 exw w1 1000000000 3500000000) as [-> ->].
  split; [vm_compute; reflexivity|]. split; [vm_compute; reflexivity|]. split; [apply elem_of_list_In; vm_compute; tauto|]. split; [reflexivity|]. split; [reflexivity|].
  repeat (apply Forall_cons; split; [lia|]). constructor.
Qed.

Print Assumptions C18_conversion.
Print Assumptions C18_total.
