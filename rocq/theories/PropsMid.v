(** C64: what a reader of the file sees while values are being updated.
    Vocabulary: [cstep], [m_start], [call_ok] as in PropsConc.v; [complete_file hp c r gen pid
    buf]: [buf] can be dumped and shows exactly the registry [r] with the values of [hp]
    (SyncView.v); [mem_world w s] is the world [w] with the memory and files of [s] (Conc.v).
    MidView.v: [updating m i mp p] goroutine [i] is inside a changing method of metric [mp];
    [half_written old new u]: [u] is made of the first bytes of [new] and the rest of [old]
    (for a string: of zeros and [old], or of [new] and zeros); [will_store]: what a
    goroutine is about to store; [shown_as m mp mm g]: metric [mp] is [mm] in memory and
    [g] in the file.
    Killing the process at any moment leaves the file of that moment, so this is also what
    is left by a kill. *)
From Verif Require Import Base BaseFacts Floats GoVal MetricType ByteWriter Hash Units Indom Metrics Registry Prog
  Client Mmvdump View RegInv World OpRuns RegFacts WorldInv Sync SyncView MetricFacts SyncLive OpFacts Life Example
  Locks LocksExec Conc ConcRuns ConcFacts MidUpdate MidRun MidView.
From stdpp Require Import relations.
Local Open Scope Z_scope.

(** The file is complete at every moment, and shows every metric as it is in memory, but
    for at most one value of each metric that is being updated. *)
Theorem C64_readable_partial w cid gen pid c r mps css m : reachable w -> synced w cid gen pid -> w_clients w !! cid = Some c -> w_regs w !! cl_reg c = Some r ->
  (forall mp m, mp ∈ mps -> h_metrics (w_heap w) !! mp = Some m -> registered r mp \/ no_closures m) -> (forall l c, l ∈ css -> c ∈ l -> call_ok w mps c) ->
  rtc (cstep (w_heap w)) (m_start (world_mem w) css) m ->
  exists buf G, file_of (mem_world w (mc_mem m)) c = Some buf /\ zlen buf = Length r /\ complete_file (mkHeap (h_indoms (w_heap w)) G) c r gen pid buf /\
    forall mp, match q_metrics (mc_mem m) !! mp, G !! mp with Some mm, Some g => shown_as m mp mm g | None, None => True | _, _ => False end.
Proof. intros R. apply mid_file, reachable_ok, R. Qed.

(** While no goroutine is inside a changing method the file shows exactly what is in memory. *)
Theorem C64_quiet w cid gen pid c r mps css m : reachable w -> synced w cid gen pid -> w_clients w !! cid = Some c -> w_regs w !! cl_reg c = Some r ->
  (forall mp m, mp ∈ mps -> h_metrics (w_heap w) !! mp = Some m -> registered r mp \/ no_closures m) -> (forall l c, l ∈ css -> c ∈ l -> call_ok w mps c) ->
  rtc (cstep (w_heap w)) (m_start (world_mem w) css) m -> (forall i mp p, ~ updating m i mp p) ->
  exists buf, file_of (mem_world w (mc_mem m)) c = Some buf /\ complete_file (w_heap (mem_world w (mc_mem m))) c r gen pid buf.
Proof.
  intros R S Hc Hr Hreg Hcs Hst Hq. destruct (C64_readable_partial w cid gen pid c r mps css m R S Hc Hr Hreg Hcs Hst) as (buf & G & H1 & _ & H2 & H3). exists buf. split; [exact H1|].
  cbn [mem_world w_heap]. assert (q_metrics (mc_mem m) = G) as ->; [|exact H2]. apply map_eq. intros mp. specialize (H3 mp). destruct (q_metrics (mc_mem m) !! mp) as [mm|], (G !! mp) as [g|]; try contradiction; [|reflexivity].
  destruct H3 as [->|(i & p & n & cc & new & u & U & _)]; [reflexivity|]. exfalso. exact (Hq _ _ _ U).
Qed.

(** Of a string the reader sees (up to the first NUL) the old one, or a beginning of the new one. *)
Fixpoint cut (s : list byte) : list byte := match s with [] => [] | b :: s => if Byte.eqb b x00 then [] else b :: cut s end.
Lemma cut_prefix (s : list byte) : forall j, cut (take j s ++ drop j (zeros 256)) `prefix_of` cut s.
Proof.
  assert (forall n, cut (replicate n x00) = []) as Z0 by (by intros []).
  assert (forall j, cut (drop j (zeros 256)) = []) as Z1. { intros j. change (zeros 256) with (replicate 256 x00). rewrite drop_replicate. apply Z0. }
  intros j. generalize (Z1 j). generalize (drop j (zeros 256)) as z. intros z Hz. revert j. induction s as [|b s IH]; intros [|j]; cbn [take app cut]; rewrite ?Hz; try apply prefix_nil.
  destruct (Byte.eqb b x00); [done|]. apply prefix_cons, IH.
Qed.
Lemma cut_padded (s : list byte) : cut (padded 256 s) = cut s.
Proof.
  unfold padded, zeros. generalize (Z.to_nat (256 - zlen s)) as n. intros n. induction s as [|b s IH]; cbn [app cut]; [by destruct n|]. by rewrite IH.
Qed.
Theorem C64_string_partial s0 s1 u : half_written (VStr s0) (VStr s1) u -> exists s, u = VStr s /\ (cut s = cut s0 \/ cut s `prefix_of` cut s1).
Proof.
  intros H. inversion H as [j d d0 old new u' N|j a b|j a b|old new]; subst.
  - exfalso. apply N. exact I.
  - eexists. split; [reflexivity|]. destruct j as [|j]; [left; apply cut_padded|right]. change (zeros 256) with (x00 :: replicate 255 x00). cbn [take app]. apply prefix_nil.
  - eexists. split; [reflexivity|]. right. apply cut_prefix.
  - eexists. split; [reflexivity|]. by right.
Qed.

(** A number whose old and new encodings differ in one byte is seen as the old or the new one. *)
Lemma mod_inj lo M a b : 0 < M -> lo <= a < lo + M -> lo <= b < lo + M -> a mod M = b mod M -> a = b.
Proof. intros HM Ha Hb E. pose proof (Z.div_mod a M ltac:(lia)). pose proof (Z.div_mod b M ltac:(lia)). assert (a / M = b / M) by nia. nia. Qed.
Lemma enc_inj n lo a b : lo <= a < lo + 256 ^ Z.of_nat n -> lo <= b < lo + 256 ^ Z.of_nat n -> le_enc n a = le_enc n b -> a = b.
Proof. intros Ha Hb E. apply (f_equal Base.le_dec) in E. rewrite !le_dec_enc in E. eapply mod_inj; [|exact Ha|exact Hb|exact E]. apply Z.pow_pos_nonneg; lia. Qed.
Lemma bytes_inj t u v : vtyped t u -> vtyped t v -> val_bytes u = val_bytes v -> u = v.
Proof.
  intros Hu Hv E. destruct u as [a|a|a|a|a|a|a|a|a|], v as [b|b|b|b|b|b|b|b|b|]; cbn [vtyped] in Hu, Hv; try contradiction;
    try (pose proof (proj1 Hu) as T1); try (pose proof (proj1 Hv) as T2); try (exfalso; rewrite T1 in T2; discriminate T2); try (exfalso; rewrite T1 in Hv; discriminate Hv); try (exfalso; rewrite Hu in T2; discriminate T2).
  all: cbn [val_bytes] in E; apply (inj Some) in E.
  1-6: f_equal; apply proj2 in Hu, Hv; unfold in_signed, in_unsigned in *.
  - apply (enc_inj 4 (- 2 ^ (32 - 1))); [..|exact E]; change (256 ^ Z.of_nat 4) with (2 ^ (32 - 1) + 2 ^ (32 - 1)); lia.
  - apply (enc_inj 8 (- 2 ^ (64 - 1))); [..|exact E]; change (256 ^ Z.of_nat 8) with (2 ^ (64 - 1) + 2 ^ (64 - 1)); lia.
  - apply (enc_inj 4 0); [..|exact E]; change (256 ^ Z.of_nat 4) with (2 ^ 32); lia.
  - apply (enc_inj 8 0); [..|exact E]; change (256 ^ Z.of_nat 8) with (2 ^ 64); lia.
  - apply (enc_inj 4 0); [..|exact E]; change (256 ^ Z.of_nat 4) with (2 ^ 32); lia.
  - apply (enc_inj 8 0); [..|exact E]; change (256 ^ Z.of_nat 8) with (2 ^ 64); lia.
  - by f_equal.
Qed.
Lemma torn_one (j : nat) (d d0 : list byte) : length d = length d0 -> (forall a b, d !! a <> d0 !! a -> d !! b <> d0 !! b -> a = b) -> take j d ++ drop j d0 = d0 \/ take j d ++ drop j d0 = d.
Proof.
  intros HL H. destruct (decide (take j d = take j d0)) as [E|NE]; [left; by rewrite E, take_drop|right].
  rewrite <- (take_drop j d) at 2. f_equal. symmetry. apply list_eq. intros a. rewrite !lookup_drop. destruct (decide (d !! (j + a)%nat = d0 !! (j + a)%nat)) as [E|N]; [done|]. exfalso.
  apply NE, list_eq. intros b. destruct (decide (b < j)%nat) as [Lt|Ge]; [|by rewrite !lookup_take_ge by lia]. rewrite !lookup_take by done.
  destruct (decide (d !! b = d0 !! b)) as [E|N']; [done|]. specialize (H _ _ N N'). lia.
Qed.
Theorem C64_number_partial t old new u d d0 : half_written old new u -> ~ is_str new -> vtyped t old -> vtyped t new -> vtyped t u -> val_bytes old = Some d0 -> val_bytes new = Some d ->
  (forall a b, d !! a <> d0 !! a -> d !! b <> d0 !! b -> a = b) -> u = old \/ u = new.
Proof.
  intros H Ns Ho Hn Hu E0 E1 D. destruct H as [j d' d0' old new u N1 N2 N3 B0 B1 HL B2|j s0 s1|j s0 s1|old new]; [|exfalso; apply Ns; exact I|exfalso; apply Ns; exact I|by right].
  rewrite E0 in B0. apply (inj Some) in B0 as <-. rewrite E1 in B1. apply (inj Some) in B1 as <-. destruct (torn_one j d d0 HL D) as [E|E]; rewrite E in B2; [left|right]; eapply bytes_inj; eauto; congruence.
Qed.

(** It is not the case that a reader always sees the old or the new value. A counter
    going up from 7 to 256: the reader sees 0. *)
Definition next_of (o : option nat) : mprog -> mem -> option (mprog * mem) := match o with Some mp => qnext mp | None => fun _ _ => None end.
Definition ex_at (css : list (list mcall)) (sched : list nat) : machine := exec mc_obj mc_rd (mc_enter (w_heap exs)) next_of mc_ret sched (m_start (world_mem exs) css).
Lemma ex_at_steps css sched : rtc (cstep (w_heap exs)) (m_start (world_mem exs) css) (ex_at css sched).
Proof.
  eapply rtc_subrel; [|apply exec_steps]. intros a b H. destruct H; [by apply ms_lock|by apply ms_rlock| |by eapply ms_unlock|by eapply ms_runlock]. apply ms_body with (1 := H). by destruct (mc_obj c).
Qed.
Definition shows_value (w : world) (c : client) (r : registry) (md : mdesc) (v : goval) : Prop :=
  exists buf d o x, file_of w c = Some buf /\ Dump buf = DOk d /\ du_values d !! o = Some x /\ res_value d x = Some (mkVV (want_metric (r_version2 r) md None) None v).
Definition rval (b : list byte) (o : Z) : option vvalue := match Dump b with DOk d => match du_values d !! o with Some x => res_value d x | None => None end | _ => None end.
Lemma shows_rval w c r md v b o : file_of w c = Some b -> rval b o = Some (mkVV (want_metric (r_version2 r) md None) None v) -> shows_value w c r md v.
Proof. unfold rval. intros Hf H. destruct (Dump b) as [d| | |] eqn:E; try discriminate. destruct (du_values d !! o) as [x|] eqn:Ex; [|discriminate]. exists b, d, o, x. auto. Qed.

Definition in_update (w : world) (c : client) (r : registry) (mp : nat) (op : mop) (old new shown : goval) : Prop :=
  exists m0 m, registered r mp /\ h_metrics (w_heap w) !! mp = Some m0 /\ val_at m0 None = Some old /\ call_ok w [mp] (MUpdate mp op false) /\
    rtc (cstep (w_heap w)) (m_start (world_mem w) [[MUpdate mp op false]]) m /\ (exists p, updating m 0 mp p /\ will_store mp p (mc_mem m) None new) /\
    shows_value (mem_world w (mc_mem m)) c r (m_desc m0) shown.
Lemma exs_client : exists c, w_clients exs !! 0%nat = Some c /\ cl_loc c = ex_loc /\ w_regs exs !! cl_reg c = Some (set_mapped exr true).
Proof.
  destruct (start_step exw 0 exc exr ex_gen ex_pid exs exw_reachable exw_client exw_reg exw_startable exs_step) as (_ & _ & Hr & wr & Hcl).
  eexists. split; [exact Hcl|]. split; [reflexivity|exact Hr].
Qed.
(** Run alone for [n] accesses. *)
Fixpoint run_on (n : nat) (mp : nat) (p : mprog) (s : mem) : mprog * mem := match n with O => (p, s) | Datatypes.S n => match qnext mp p s with Some (p', s') => run_on n mp p' s' | None => (p, s) end end.
Lemma run_on_steps n mp : forall p s, qsteps mp (p, s) (run_on n mp p s).
Proof. induction n as [|n IH]; intros p s; cbn [run_on]; [apply rtc_refl|]. destruct (qnext mp p s) as [[p' s']|] eqn:E; [|apply rtc_refl]. eapply rtc_l; [|apply IH]. exact E. Qed.
Lemma will_run k mp p s n v : (q_metrics (run_on k mp p s).2 !! mp ≫= fun m => val_at m n) = Some v -> will_store mp p s n v.
Proof.
  intros H. destruct (run_on k mp p s) as [p' s'] eqn:E. cbn [snd] in H. destruct (q_metrics s' !! mp) as [m'|] eqn:Em; [|discriminate]. exists p', s', m'. split; [|auto]. rewrite <- E. apply run_on_steps.
Qed.

Definition soon (k : nat) (m : machine) (mp : nat) (v : goval) : bool :=
  match mc_thr m with
  | [mkThr _ (Some (MUpdate mp' _ _, p)) _] => Nat.eqb mp' mp && bool_decide ((q_metrics (run_on k mp p (mc_mem m)).2 !! mp ≫= fun m => val_at m None) = Some v)
  | _ => false
  end.
Lemma soon_sound k m mp v : soon k m mp v = true -> exists p, updating m 0 mp p /\ will_store mp p (mc_mem m) None v.
Proof.
  unfold soon, updating. destruct (mc_thr m) as [|[d [[[mp' op' mst'|? ?] p]|] l] [|? ?]] eqn:E; try discriminate. intros H. apply andb_true_iff in H as [H1 H2]. apply Nat.eqb_eq in H1 as ->. apply bool_decide_eq_true in H2.
  exists p. split; [by exists d, op', mst', l|]. eapply will_run, H2.
Qed.
Lemma reg_mapped r mp : registered r mp -> registered (set_mapped r true) mp.
Proof. done. Qed.
Lemma v2_mapped r : r_version2 (set_mapped r true) = r_version2 r.
Proof. done. Qed.
Lemma file_mem w s c loc ino b : cl_loc c = loc -> w_paths w !! loc = Some ino -> f_inodes (q_files s) !! ino = Some b -> file_of (mem_world w s) c = Some b.
Proof. intros <- H1 H2. unfold file_of. cbn. by rewrite H1. Qed.
Lemma ex_in_update k mp m op old new shown sched b o c : registered exr mp -> h_metrics (w_heap exw) !! mp = Some m -> val_at m None = Some old -> m_indom m = None ->
  (forall m', m_desc m' = m_desc m -> m_kind m' = m_kind m -> h_metrics (w_heap exs) !! mp = Some m' -> call_ok exs [mp] (MUpdate mp op false)) ->
  w_clients exs !! 0%nat = Some c -> cl_loc c = ex_loc ->
  f_inodes (q_files (mc_mem (ex_at [[MUpdate mp op false]] sched))) !! 0%nat = Some b ->
  soon k (ex_at [[MUpdate mp op false]] sched) mp new = true ->
  rval b o = Some (mkVV (want_metric (r_version2 exr) (m_desc m) None) None shown) ->
  in_update exs c (set_mapped exr true) mp op old new shown.
Proof.
  intros HR Hm Hv Hi Hok Hc Hl Hb Ht Hrv. destruct (exs_metric mp m HR Hm) as (m' & Hm' & Ed & Ek & Ev & _ & _). exists m', (ex_at [[MUpdate mp op false]] sched).
  split; [exact (reg_mapped _ _ HR)|]. split; [exact Hm'|]. split; [rewrite Ev; exact Hv|]. split; [exact (Hok m' Ed Ek Hm')|]. split; [exact (ex_at_steps _ _)|]. split.
  - eapply soon_sound, Ht.
  - apply (shows_rval _ _ _ _ _ b o); [|rewrite Ed, v2_mapped; exact Hrv]. exact (file_mem _ _ _ _ _ _ Hl (proj1 exs_file) Hb).
Qed.
Theorem C64_old_or_new_refuted : exists w cid gen pid c r, reachable w /\ synced w cid gen pid /\ w_clients w !! cid = Some c /\ w_regs w !! cl_reg c = Some r /\
  in_update w c r 1 (OCInc 249) (VInt64 7) (VInt64 256) (VInt64 0) /\
  in_update w c r 2 (OSet (VStr (str "world"))) (VStr (str "hello")) (VStr (str "world")) (VStr (zeros 256)).
Proof.
  destruct exs_client as (c & Hc & Hl & Hr). exists exs, 0%nat, ex_gen, ex_pid, c, (set_mapped exr true). split; [exact exs_reachable|]. split; [exact exs_synced|]. split; [exact Hc|]. split; [exact Hr|]. split.
  - eapply (ex_in_update 20 1 ex_counter _ _ _ _ (replicate 5 0%nat) _ 1992); [apply ex_registered; vm_compute; reflexivity|rewrite exw_metric; reflexivity|vm_compute; reflexivity|reflexivity| |exact Hc|exact Hl|vm_compute; reflexivity|vm_compute; reflexivity|vm_compute; reflexivity].
    intros m' Ed Ek Hm'. split; [left|]. eexists m', _. split; [exact Hm'|]. unfold prog_of. rewrite Ek. split; [reflexivity|]. split; cbv; intuition discriminate.
  - eapply (ex_in_update 600 2 ex_string _ _ _ _ (replicate 8 0%nat) _ 1832); [apply ex_registered; vm_compute; reflexivity|rewrite exw_metric; reflexivity|vm_compute; reflexivity|reflexivity| |exact Hc|exact Hl|vm_compute; reflexivity|vm_compute; reflexivity|vm_compute; reflexivity].
    intros m' Ed Ek Hm'. split; [left|]. eexists m', _. split; [exact Hm'|]. unfold prog_of. rewrite Ek. split; [reflexivity|]. split; cbv; intuition discriminate.
Qed.

(** The hypotheses hold for a started client with two goroutines, here in the middle of an
    update and after it. *)
Definition ex_calls3 : list (list mcall) := [[MUpdate 1 (OCInc 249) false]; [MVal 1 None]].
Definition no_update (m : machine) : bool := forallb (fun t => match t_cur t with Some (MUpdate _ _ _, _) => false | _ => true end) (mc_thr m).
Lemma no_update_sound m : no_update m = true -> forall i mp p, ~ updating m i mp p.
Proof.
  unfold no_update. intros H i mp p (d & op & mst & l & Hi). rewrite forallb_forall in H. specialize (H _ (proj1 (elem_of_list_In _ _) (elem_of_list_lookup_2 _ _ _ Hi))). discriminate H.
Qed.
Definition busy1 (m : machine) : bool := match mc_thr m with mkThr _ (Some (MUpdate mp _ _, _)) _ :: _ => Nat.eqb mp 1 | _ => false end.
Lemma busy1_sound m : busy1 m = true -> exists p, updating m 0 1 p.
Proof.
  unfold busy1, updating. destruct (mc_thr m) as [|[d [[[mp' op' mst'|? ?] p]|] l] ts]; try discriminate. intros H. apply Nat.eqb_eq in H as ->. by exists p, d, op', mst', l.
Qed.
Lemma val1_sound (s : mem) v : bool_decide ((q_metrics s !! 1%nat ≫= fun m => val_at m None) = Some v) = true -> exists mm, q_metrics s !! 1%nat = Some mm /\ val_at mm None = Some v.
Proof. intros H. apply bool_decide_eq_true in H. destruct (q_metrics s !! 1%nat) as [mm|]; [|discriminate]. by exists mm. Qed.
Example C64_ex : exists c r m m', synced exs 0 ex_gen ex_pid /\ w_clients exs !! 0%nat = Some c /\ w_regs exs !! cl_reg c = Some r /\
  (forall mp m, mp ∈ [1%nat] -> h_metrics (w_heap exs) !! mp = Some m -> registered r mp \/ no_closures m) /\ (forall l c, l ∈ ex_calls3 -> c ∈ l -> call_ok exs [1%nat] c) /\
  rtc (cstep (w_heap exs)) (m_start (world_mem exs) ex_calls3) m /\ (exists p, updating m 0 1 p) /\
  rtc (cstep (w_heap exs)) (m_start (world_mem exs) ex_calls3) m' /\ (forall i mp p, ~ updating m' i mp p) /\
  exists mm, q_metrics (mc_mem m') !! 1%nat = Some mm /\ val_at mm None = Some (VInt64 256).
Proof.
  destruct exs_client as (c & Hc & Hl & Hr). exists c, (set_mapped exr true), (ex_at ex_calls3 [0; 0; 0; 0; 0]%nat), (ex_at ex_calls3 (replicate 20 0%nat ++ [1%nat])).
  split; [exact exs_synced|]. split; [exact Hc|]. split; [exact Hr|]. split; [|split; [|split; [apply ex_at_steps|split; [|split; [apply ex_at_steps|split]]]]].
  - intros mp m Hin _. apply elem_of_list_singleton in Hin as ->. left. apply reg_mapped, ex_registered. vm_compute. reflexivity.
  - destruct (exs_metric 1 ex_counter) as (m1 & Hm1 & Ed1 & Ek1 & _); [apply ex_registered; vm_compute; reflexivity|rewrite exw_metric; reflexivity|]. intros l c0 H1 H2. unfold ex_calls3 in H1. rewrite !elem_of_cons, elem_of_nil in H1. destruct H1 as [-> | [-> | []]]; apply elem_of_list_singleton in H2 as ->; (split; [left|]).
    + eexists m1, _. split; [exact Hm1|]. unfold prog_of. rewrite Ek1. split; [reflexivity|]. split; cbv; intuition discriminate.
    + by exists m1.
  - apply busy1_sound. vm_compute. reflexivity.
  - apply no_update_sound. vm_compute. reflexivity.
  - apply val1_sound. vm_compute. reflexivity.
Qed.
Example C64_string_ex : half_written (VStr (str "hello")) (VStr (str "world")) (VStr (str "wor" ++ zeros 253)) /\ cut (str "wor" ++ zeros 253) = str "wor".
Proof. split; [|vm_compute; reflexivity]. replace (str "wor" ++ zeros 253) with (take 3 (str "world") ++ drop 3 (zeros 256)) by (vm_compute; reflexivity). apply hw_fill. Qed.
Example C64_number_ex : half_written (VInt64 7) (VInt64 9) (VInt64 9) /\ half_written (VInt64 7) (VInt64 256) (VInt64 0).
Proof. split; [eapply (hw_num 1)|eapply (hw_num 1)]; try reflexivity; by intros []. Qed.

Print Assumptions C64_readable_partial.
Print Assumptions C64_quiet.
Print Assumptions C64_string_partial.
Print Assumptions C64_number_partial.
Print Assumptions C64_old_or_new_refuted.
Print Assumptions C64_ex.
