(** C67: the download example. *)
From Verif Require Import Base BaseFacts Floats GoVal MetricType ByteWriter Hash Units Indom Metrics Registry Prog
  Client Mmvdump View RegInv World OpRuns RegFacts WorldInv Sync ValueFacts MetricFacts OpFacts FloatFacts FlocqFacts FloatErr HistFacts SyncView Life Parse Example Samples SamplesFacts SamplesDl SamplesDlErr PropsSamples.
From Coq Require Import Reals.
From Flocq Require Import Core.Core.
Local Open Scope Z_scope.

(** Type 5 is a double; semantics: 3 instant, 4 discrete. Units: space 1, time -1, megabytes and seconds: 1 << 28 | 15 << 24 | 2 << 16 | 3 << 12;
    time 1, seconds: 1 << 24 | 3 << 12. *)
Definition dl_view (t s : Z) : view :=
  let speed := metric_rec 64 (str "download_speed") 5 3 520237056 None None None in
  let time := metric_rec 64 (str "download_time") 5 4 16789504 None None None in
  mkView [] [] [speed; time] [mkVV speed None (VF64 s); mkVV time None (VF64 t)].
Lemma view_at loc gen pid t s ru w : dl_at loc gen pid t s ru w -> file_shows w loc (str "download") 1 2 gen pid (dl_view t s).
Proof. exact (dl_shows loc gen pid t s ru w). Qed.

(** The double [x] is [r] up to a relative error of [2^-k]. *)
Definition about (k x : Z) (r : R) : Prop := finite64 x /\ (Rabs (R64 x - r) <= bpow radix2 (- k) * Rabs r)%R.
(** [t] is how long the download took, in seconds; [s] how many megabytes a second that is, if it took any time. Zero before the first. *)
Definition is_time (l : option download) (t : Z) : Prop :=
  match l with Some d => about 51 t (IZR (dl_stop d - dl_start d) / 1000000000)%R | None => t = 0 end.
Definition is_speed (l : option download) (s : Z) : Prop :=
  match l with
  | Some d => dl_start d < dl_stop d -> about 49 s (IZR (dl_bytes d) / 1048576 / (IZR (dl_stop d - dl_start d) / 1000000000))%R
  | None => s = 0
  end.
(** io.Copy returns an int64, and the clock does not run backwards. *)
Definition possible (d : download) : Prop := 0 <= dl_bytes d < 2 ^ 63 /\ dl_start d <= dl_stop d < dl_start d + 2 ^ 63.
Lemma possible_ok ds : Forall possible ds -> Forall dl_ok ds.
Proof. intros F. eapply Forall_impl; [exact F|]. by intros d [_ H]. Qed.
Lemma time_is_d d : possible d -> is_time (Some d) (elapsed d).
Proof.
  intros [_ OK]. destruct (elapsed_apx d OK) as [F A]. split; [exact F|]. unfold apx, dl_ns in A.
  change (- (51)) with (2 + -53). rewrite bpow_plus. change (bpow radix2 2) with 4%R. exact A.
Qed.
Lemma no_time n now : elapsed (mkDl n now now) = 0.
Proof. unfold elapsed. cbn [dl_stop dl_start]. rewrite Z.sub_diag. vm_compute. reflexivity. Qed.
Local Opaque elapsed mb_per_s.
Lemma time_is l : (forall d, l = Some d -> possible d) -> is_time l (time_of l).
Proof. intros H. destruct l as [d|]; [|reflexivity]. exact (time_is_d d (H d eq_refl)). Qed.
Lemma speed_is l s : (forall d, l = Some d -> possible d) -> speed_of l s -> is_speed l s.
Proof.
  intros H E. destruct l as [d|]; [|exact E]. destruct (H d eq_refl) as [Hn OK]. intros Hd. assert (0 < dl_ns d) as Hd' by (unfold dl_ns; lia). destruct (speed_apx d OK Hn Hd') as [F A].
  destruct (same_real _ _ E) as [Er Ef]. split; [exact (Ef F)|]. rewrite Er. unfold apx, dl_ns in A. change (- (49)) with (4 + -53). rewrite bpow_plus. change (bpow radix2 4) with 16%R. exact A.
Qed.
Lemma last_possible ds d : Forall possible ds -> last ds = Some d -> possible d.
Proof. intros F E. rewrite Forall_forall in F. apply F. by apply last_Some_elem_of. Qed.

(** Whenever the program is back at the top of its loop the file shows the time and the speed of the download it has just made. *)
Theorem C67_shows loc gen pid ds : Forall possible ds -> surely w_init (download_prog loc gen pid ds) (fun w => exists t s,
  file_shows w loc (str "download") 1 2 gen pid (dl_view t s) /\ is_time (last ds) t /\ is_speed (last ds) s).
Proof.
  intros F. eapply surely_mono; [apply dl_runs, possible_ok, F|]. intros w (s & A & Sp). exists (time_of (last ds)), s. split; [eapply view_at; exact A|].
  split; [apply time_is|apply speed_is; [|exact Sp]]; intros d E; by eapply last_possible.
Qed.

(** At no moment between two calls does a call fail, and the time is that of the last download, 0, or that of the current one, after which the speed follows.
    Missing: the two belong to the same download. *)
Theorem C67_between_partial loc gen pid ds d j : Forall possible ds -> possible d -> (j <= 4)%nat ->
  surely w_init (download_prog loc gen pid ds ++ take j (dl_round d)) (fun w => exists t s, file_shows w loc (str "download") 1 2 gen pid (dl_view t s) /\
    match j with
    | 0%nat => is_time (last ds) t /\ is_speed (last ds) s
    | 1%nat | 2%nat => t = 0 /\ is_speed (last ds) s
    | 3%nat => is_time (Some d) t /\ is_speed (last ds) s
    | _ => is_time (Some d) t /\ is_speed (Some d) s
    end).
Proof.
  intros F P Hj. eapply surely_mono; [apply dl_prefix; [apply possible_ok, F|apply P|exact Hj]|]. intros w (s & Sp & A).
  assert (is_speed (last ds) s) as S1 by (apply speed_is; [intros x E; by eapply last_possible|exact Sp]).
  assert (is_time (last ds) (time_of (last ds))) as T1 by (apply time_is; intros x E; by eapply last_possible).
  assert (is_time (Some d) (elapsed d)) as T2 by (by apply time_is_d).
  destruct j as [|[|[|[|j]]]]; cbn [stage] in A.
  - exists (time_of (last ds)), s. split; [by eapply view_at|auto].
  - exists f64_zero, s. split; [by eapply view_at|split; [reflexivity|exact S1]].
  - exists f64_zero, s. split; [by eapply view_at|split; [reflexivity|exact S1]].
  - exists (elapsed d), s. split; [by eapply view_at|auto].
  - destruct A as (s' & A & Sp'). exists (elapsed d), s'. split; [by eapply view_at|]. split; [exact T2|]. apply speed_is; [by intros x [= ->]|exact Sp'].
Qed.

(** What Stop returns, which the program goes on with, is what the timer shows. *)
Theorem C67_returned w mp m d fs' m' e : reachable w -> h_metrics (w_heap w) !! mp = Some m -> possible d -> md_unit (m_desc m) = SecondUnit ->
  m_kind m = MTimer true (dl_start d) -> m_val m = Some (VF64 0) ->
  timer_stop (w_files w) m (dl_stop d) = (ROk, fs', m', e) -> m_val m' = Some (VF64 e) /\ is_time (Some d) e.
Proof.
  intros R Hm P Hu Hk Hv H. destruct (stop_returns (w_heap w) _ m d fs' m' e (ho_metrics _ (wo_heap _ (reachable_ok _ R)) _ _ Hm) (proj2 P) Hu Hk Hv H) as [-> E].
  split; [exact E|]. by apply time_is_d.
Qed.
Example C67_returned_ex : exists w m, exec w_init (dl_setup (str "/tmp/dl") 7 99 ++ take 2 (dl_round (mkDl 1 7 500000007))) true w /\ reachable w /\
  h_metrics (w_heap w) !! 2%nat = Some m /\ md_unit (m_desc m) = SecondUnit /\ m_kind m = MTimer true 7 /\ m_val m = Some (VF64 0).
Proof.
  destruct (dl_prefix (str "/tmp/dl") 7 99 [] (mkDl 1 7 500000007) 2) as [[w E] H]; [constructor|split; vm_compute; [discriminate|reflexivity]|lia|].
  destruct (H _ _ E) as (_ & s & _ & ([[R _] _ _ _] & _ & (b & since & (m & Hm & Hd & Hk & _ & Hv) & Er) & _)). exists w, m. unfold download_prog in E. cbn [map concat] in E. rewrite app_nil_r in E.
  assert (b = true /\ since = 7) as [-> ->] by (destruct b; [injection Er as ->; auto|discriminate]).
  split; [exact E|]. split; [exact R|]. split; [exact Hm|]. split; [by rewrite Hd|]. split; [exact Hk|]. rewrite <- val_at_single, Hv. reflexivity.
Qed.

Lemma same_exact s x : same_but_zero s x -> match f64_val x with S754_zero _ => false | _ => true end = true -> s = x.
Proof. intros [->|(a & b & _ & E)] H; [reflexivity|]. rewrite E in H. discriminate. Qed.
(** 1.0 and 2.0 *)
Definition one_s : Z := 0x3FF0000000000000.
Definition two_s : Z := 0x4000000000000000.

(** It is not the case that time and speed shown belong to the same download: after a megabyte in one second and another in two, the file shows
    two seconds and one megabyte a second until the speed is set. *)
Definition first_mb : download := mkDl 1048576 0 1000000000.
Definition second_mb : download := mkDl 1048576 1500000000 3500000000.
Theorem C67_together_refuted loc gen pid : surely w_init (download_prog loc gen pid [first_mb] ++ take 3 (dl_round second_mb))
  (fun w => file_shows w loc (str "download") 1 2 gen pid (dl_view two_s one_s)).
Proof.
  assert (dl_ok first_mb /\ dl_ok second_mb) as [O1 O2] by (split; split; vm_compute; [discriminate|reflexivity|discriminate|reflexivity]).
  eapply surely_mono; [apply (dl_prefix loc gen pid [first_mb] second_mb 3); [by repeat constructor|exact O2|lia]|]. intros w (s & Sp & A).
  change (last [first_mb]) with (Some first_mb) in *. unfold speed_of in Sp. assert (mb_per_s (dl_bytes first_mb) (elapsed first_mb) = one_s) as E1 by (vm_compute; reflexivity). rewrite E1 in Sp.
  apply same_exact in Sp; [|reflexivity]. subst s. assert (elapsed second_mb = two_s) as E2 by (vm_compute; reflexivity). cbn [stage] in A. rewrite E2 in A. by eapply view_at.
Qed.
(** Nor that the speed is a number: if the clock reads the same before and after the download, it is +Inf. *)
Theorem C67_number_refuted loc gen pid now : surely w_init (download_prog loc gen pid [mkDl 1048576 now now])
  (fun w => file_shows w loc (str "download") 1 2 gen pid (dl_view 0 0x7FF0000000000000)).
Proof.
  assert (dl_ok (mkDl 1048576 now now)) as O1 by (split; cbn; lia). eapply surely_mono; [apply dl_runs; apply Forall_singleton; exact O1|]. intros w (s & A & Sp).
  change (last [mkDl 1048576 now now]) with (Some (mkDl 1048576 now now)) in *. unfold speed_of, time_of in *.
  rewrite no_time in *. cbn [dl_bytes] in Sp.
  assert (mb_per_s 1048576 0 = 0x7FF0000000000000) as E2 by (vm_compute; reflexivity). rewrite E2 in Sp. apply same_exact in Sp; [|vm_compute; reflexivity]. subst s. by eapply view_at.
Qed.

(** Two downloads; the second is 2 MB in one second. *)
Example C67_ex loc : Forall possible [first_mb; mkDl 2097152 5 1000000005] /\
  surely w_init (download_prog loc 7 99 [first_mb; mkDl 2097152 5 1000000005]) (fun w => file_shows w loc (str "download") 1 2 7 99 (dl_view one_s two_s)).
Proof.
  assert (Forall possible [first_mb; mkDl 2097152 5 1000000005]) as F by (repeat constructor; vm_compute; try discriminate; reflexivity). split; [exact F|].
  eapply surely_mono; [apply dl_runs, possible_ok, F|]. intros w (s & A & Sp). change (last [first_mb; mkDl 2097152 5 1000000005]) with (Some (mkDl 2097152 5 1000000005)) in *. unfold speed_of, time_of in *.
  assert (elapsed (mkDl 2097152 5 1000000005) = one_s) as E1 by (vm_compute; reflexivity). rewrite E1 in *. cbn [dl_bytes] in Sp.
  assert (mb_per_s 2097152 one_s = two_s) as E2 by (vm_compute; reflexivity). rewrite E2 in Sp. apply same_exact in Sp; [|vm_compute; reflexivity]. subst s. by eapply view_at.
Qed.

Print Assumptions C67_shows.
Print Assumptions C67_between_partial.
Print Assumptions C67_returned.
Print Assumptions C67_together_refuted.
Print Assumptions C67_number_refuted.
