(** C65: what a reader sees who reads the file piece by piece while values are being
    updated, as a reader does that copies the file or maps it and looks at one entry after
    the other.
    Vocabulary as in PropsMid.v (C64). MidPiece.v: [in_file u] the bytes of the value [u]
    in the file; [updated css mp] some call of [css] updates metric [mp]; [once_shown w css
    mp n u] at some moment the file shows [u] as the value [n] of [mp]; [pieced w css mp m0
    g]: [g] is the metric [m0] with values each byte of which is a byte, at the same place,
    of a value once shown. *)
From Verif Require Import Base BaseFacts Floats GoVal MetricType ByteWriter Hash Units Indom Metrics Registry Prog
  Client Mmvdump View RegInv World OpRuns RegFacts WorldInv Sync SyncView MetricFacts SyncLive OpFacts Life Example
  Locks LocksExec Conc ConcRuns ConcFacts MidSlot MidUpdate MidRun MidView MidPiece PropsMid.
From stdpp Require Import relations.
Local Open Scope Z_scope.

(** [buf] is what a reader got who read each byte at some moment of the goroutines [css],
    possibly different moments for different bytes. *)
Definition read_in_pieces (w : world) (c : client) (css : list (list mcall)) (buf : list byte) : Prop :=
  forall j b, buf !! j = Some b -> exists m f, rtc (cstep (w_heap w)) (m_start (world_mem w) css) m /\ file_of (mem_world w (mc_mem m)) c = Some f /\ f !! j = Some b.

(** Such a reader gets a complete file too; the metrics that are not updated are shown as
    they are, and each byte of another value was there at some moment. *)
Theorem C65_readable_partial w cid gen pid c r mps css buf : reachable w -> synced w cid gen pid -> w_clients w !! cid = Some c -> w_regs w !! cl_reg c = Some r ->
  (forall mp m, mp ∈ mps -> h_metrics (w_heap w) !! mp = Some m -> registered r mp \/ no_closures m) -> (forall l c, l ∈ css -> c ∈ l -> call_ok w mps c) ->
  zlen buf = Length r -> read_in_pieces w c css buf ->
  exists G, complete_file (mkHeap (h_indoms (w_heap w)) G) c r gen pid buf /\
    forall mp, match h_metrics (w_heap w) !! mp, G !! mp with
      | Some m0, Some g => g = m0 \/ registered r mp /\ updated css mp /\ pieced w css mp m0 g
      | None, None => True
      | _, _ => False
      end.
Proof. intros R. apply piecemeal, reachable_ok, R. Qed.

(** If nothing is updated the reader gets the file of the values in memory. *)
Theorem C65_not_updated w cid gen pid c r mps css buf : reachable w -> synced w cid gen pid -> w_clients w !! cid = Some c -> w_regs w !! cl_reg c = Some r ->
  (forall mp m, mp ∈ mps -> h_metrics (w_heap w) !! mp = Some m -> registered r mp \/ no_closures m) -> (forall l c, l ∈ css -> c ∈ l -> call_ok w mps c) ->
  (forall mp, registered r mp -> ~ updated css mp) -> zlen buf = Length r -> read_in_pieces w c css buf -> complete_file (w_heap w) c r gen pid buf.
Proof.
  intros R S Hc Hr Hreg Hcs Hn HL HB. destruct (C65_readable_partial w cid gen pid c r mps css buf R S Hc Hr Hreg Hcs HL HB) as (G & H1 & H2).
  assert (G = h_metrics (w_heap w)) as ->; [|by destruct (w_heap w)]. apply map_eq. intros mp. specialize (H2 mp). destruct (h_metrics (w_heap w) !! mp) as [m0|], (G !! mp) as [g|]; try contradiction; [|reflexivity].
  destruct H2 as [->|(H2 & H3 & _)]; [reflexivity|]. exfalso. exact (Hn _ H2 H3).
Qed.

(** A number is read as it was at some moment if the values shown differ in one byte only
    (a counter that stays below 256, for example). *)
Lemma num_len t u d : vtyped t u -> t <> StringType -> val_bytes u = Some d -> zlen d <= 8 /\ in_file u = padded 8 d.
Proof.
  intros Ht N Hd. unfold in_file. rewrite Hd. destruct u; cbn [vtyped] in Ht; try contradiction; cbn [val_bytes] in Hd; apply (inj Some) in Hd; try (split; [|reflexivity]; subst d; unfold zlen; rewrite le_enc_length; cbv; discriminate).
Qed.
Lemma pad_len8 (d : list byte) : zlen d <= 8 -> length (padded 8 d) = 8%nat.
Proof. intros H. unfold padded, zeros. rewrite app_length, replicate_length. unfold zlen in *. lia. Qed.
Theorem C65_number_partial w css mp m0 g n u i0 : pieced w css mp m0 g -> val_at g n = Some u -> md_type (m_desc m0) <> StringType -> (i0 < 8)%nat ->
  (forall u1 u2 i, once_shown w css mp n u1 -> once_shown w css mp n u2 -> i <> i0 -> in_file u1 !! i = in_file u2 !! i) -> once_shown w css mp n u.
Proof.
  intros (_ & _ & H) Hu N Hi Hone. specialize (H n). rewrite Hu in H. destruct (val_at m0 n) as [v0|]; [|contradiction]. destruct H as [Ht H]. set (t := md_type (m_desc m0)) in *.
  destruct (val_bytes_some _ _ Ht) as (d & Hd). destruct (num_len _ _ _ Ht N Hd) as [Ld Ed].
  assert (is_Some (in_file u !! i0)) as [b0 Hb0]. { apply lookup_lt_is_Some_2. rewrite Ed, pad_len8 by exact Ld. exact Hi. }
  destruct (H _ _ Hb0) as (u' & O' & T' & B'). destruct (val_bytes_some _ _ T') as (d' & Hd'). destruct (num_len _ _ _ T' N Hd') as [Ld' Ed'].
  assert (in_file u = in_file u') as E.
  { apply list_eq. intros i. destruct (in_file u !! i) as [b|] eqn:Eb.
    - destruct (decide (i = i0)) as [->|Ni]; [congruence|]. destruct (H _ _ Eb) as (u2 & O2 & _ & B2). rewrite <- B2. eauto.
    - symmetry. apply lookup_ge_None_2. apply lookup_ge_None_1 in Eb. rewrite Ed, pad_len8 in Eb by exact Ld. rewrite Ed', pad_len8 by exact Ld'. exact Eb. }
  assert (length d = length d') as Lq.
  { assert (~ is_str u) as Ns. { intros S. destruct u; contradiction. } exact (same_type_len _ _ _ _ _ Ht T' Ns Hd Hd'). }
  assert (u = u') as ->; [|exact O']. apply (bytes_inj t); auto. rewrite Hd, Hd'. f_equal. rewrite Ed, Ed' in E. unfold padded in E. by apply app_inj_1 in E as [-> _].
Qed.

(** It is not the case that every value such a reader gets was in the file at some moment.
    A counter is incremented once, from 7 to 256. A reader that reads front to back, the
    last byte it reads before the increment being the first byte of the counter, gets 263. *)
Section one.
  Context (hp : heap).
  Notation ex1 := (exec1 mc_obj mc_rd (mc_enter hp) next_of mc_ret).
  Notation exN := (exec mc_obj mc_rd (mc_enter hp) next_of mc_ret).
  Lemma exec1_all (m m' : machine) : cstep hp m m' -> length (mc_thr m) = 1%nat -> ex1 0%nat m = Some m' /\ length (mc_thr m') = 1%nat.
  Proof.
    intros H L. destruct H as [s f ts i d c l Hi Hr Hf|s f ts i d c l X Hi Hr Hf|s f ts i d c p l p' s' Hi Hs|s f ts i d c p l r Hi Hp Hr|s f ts i d c p l r X Hi Hp Hr Hf];
      pose proof (lookup_lt_Some _ _ _ Hi) as Lt; cbn [mc_thr] in *; rewrite insert_length; (split; [|exact L]); assert (i = 0%nat) as -> by lia; unfold exec1; cbn [mc_thr mc_locks mc_mem]; rewrite Hi.
    - rewrite Hf, Hr. by rewrite decide_True.
    - by rewrite Hf, Hr.
    - assert (mc_ret p = None) as ->. { destruct (mc_obj c); [|contradiction]. unfold qstep in Hs. destruct p; try reflexivity; discriminate Hs. }
      unfold next_of. destruct (mc_obj c) as [mp|]; [|contradiction]. unfold qstep in Hs. by rewrite Hs.
    - by rewrite Hp, Hr.
    - by rewrite Hp, Hr, Hf.
  Qed.
  Lemma exec_app (m : machine) a b : exN (a ++ b) m = exN b (exN a m).
  Proof. revert m. induction a as [|i a IH]; intros m; cbn; auto. Qed.
  Lemma one_run (m m' : machine) : rtc (cstep hp) m m' -> length (mc_thr m) = 1%nat -> exists n, m' = exN (replicate n 0%nat) m.
  Proof.
    intros H. induction H as [m|m1 m2 m3 M _ IH]; intros L; [by exists 0%nat|]. destruct (exec1_all _ _ M L) as [E L']. destruct (IH L') as (n & ->). exists (Datatypes.S n). cbn. by rewrite E.
  Qed.
  Lemma exec_stuck (m : machine) n : ex1 0%nat m = None -> exN (replicate n 0%nat) m = m.
  Proof. intros E. induction n as [|n IH]; [reflexivity|]. cbn. by rewrite E. Qed.
  Lemma one_run_upto (m m' : machine) N : rtc (cstep hp) m m' -> length (mc_thr m) = 1%nat -> ex1 0%nat (exN (replicate N 0%nat) m) = None -> exists n, (n <= N)%nat /\ m' = exN (replicate n 0%nat) m.
  Proof.
    intros H L E. destruct (one_run _ _ H L) as (n & ->). destruct (decide (n <= N)%nat) as [Ln|Ln]; [by exists n|]. exists N. split; [lia|].
    replace n with (N + (n - N))%nat by lia. rewrite replicate_add, exec_app. by apply exec_stuck.
  Qed.
End one.

Definition ex_inc : list (list mcall) := [[MUpdate 1 (OCInc 249) false]].
(** Reading [n] bytes at one moment and the rest at a later one. *)
Definition read_twice (w : world) (c : client) (css : list (list mcall)) (n : nat) (buf : list byte) : Prop :=
  exists m1 m2 f1 f2, rtc (cstep (w_heap w)) (m_start (world_mem w) css) m1 /\ rtc (cstep (w_heap w)) m1 m2 /\
    file_of (mem_world w (mc_mem m1)) c = Some f1 /\ file_of (mem_world w (mc_mem m2)) c = Some f2 /\ buf = take n f1 ++ drop n f2.
(** [buf] shows the value [v] of a metric described by [md]. *)
Definition buf_shows (buf : list byte) (r : registry) (md : mdesc) (v : goval) : Prop :=
  exists d o x, Dump buf = DOk d /\ du_values d !! o = Some x /\ res_value d x = Some (mkVV (want_metric (r_version2 r) md None) None v).
Lemma buf_rval r md v b o : rval b o = Some (mkVV (want_metric (r_version2 r) md None) None v) -> buf_shows b r md v.
Proof. unfold rval. intros H. destruct (Dump b) as [d| | |] eqn:E; try discriminate. destruct (du_values d !! o) as [x|] eqn:Ex; [|discriminate]. exists d, o, x. auto. Qed.
Definition has_val (b : list byte) (v : goval) : bool :=
  match Dump b with DOk d => existsb (fun x => match res_value d x with Some y => bool_decide (vv_val y = v) | None => false end) (map_to_list (du_values d)).*2 | _ => false end.
Lemma has_val_not b r md v : has_val b v = false -> ~ buf_shows b r md v.
Proof.
  unfold has_val. intros H (d & o & x & E & Ex & Er). rewrite E in H. apply not_true_iff_false in H. apply H. apply existsb_exists. exists x. split.
  - apply elem_of_list_In, elem_of_list_fmap. exists (o, x). split; [reflexivity|]. by apply elem_of_map_to_list.
  - rewrite Er. cbn. by apply bool_decide_eq_true.
Qed.
Definition file0 (m : machine) : list byte := default [] (f_inodes (q_files (mc_mem m)) !! 0%nat).
Lemma file0_of w m c loc buf : cl_loc c = loc -> w_paths w !! loc = Some 0%nat -> file_of (mem_world w (mc_mem m)) c = Some buf -> file0 m = buf.
Proof. intros <- H1 H2. unfold file_of in H2. cbn in H2. rewrite H1 in H2. cbn in H2. unfold file0. by rewrite H2. Qed.
Lemma file0_is w m c loc : cl_loc c = loc -> w_paths w !! loc = Some 0%nat -> 0 <? zlen (file0 m) = true -> file_of (mem_world w (mc_mem m)) c = Some (file0 m).
Proof. intros <- H1 H2. unfold file_of. cbn. rewrite H1. cbn. unfold file0 in *. by destruct (f_inodes (q_files (mc_mem m)) !! 0%nat). Qed.
Theorem C65_read_value_was_there_refuted : exists w cid gen pid c r mp m0 buf, reachable w /\ synced w cid gen pid /\ w_clients w !! cid = Some c /\ w_regs w !! cl_reg c = Some r /\
  registered r mp /\ h_metrics (w_heap w) !! mp = Some m0 /\ val_at m0 None = Some (VInt64 7) /\
  (forall l c, l ∈ [[MUpdate mp (OCInc 249) false]] -> c ∈ l -> call_ok w [mp] c) /\
  read_twice w c [[MUpdate mp (OCInc 249) false]] 1993 buf /\ buf_shows buf r (m_desc m0) (VInt64 263) /\
  forall m f, rtc (cstep (w_heap w)) (m_start (world_mem w) [[MUpdate mp (OCInc 249) false]]) m -> file_of (mem_world w (mc_mem m)) c = Some f -> ~ buf_shows f r (m_desc m0) (VInt64 263).
Proof.
  destruct exs_client as (c & Hc & Hl & Hr). assert (registered exr 1) as HR by (apply ex_registered; vm_compute; reflexivity).
  destruct (exs_metric 1 ex_counter HR) as (m' & Hm' & Ed & Ek & Ev & _ & _); [rewrite exw_metric; reflexivity|].
  exists exs, 0%nat, ex_gen, ex_pid, c, (set_mapped exr true), 1%nat, m', (take 1993 (file0 (ex_at ex_inc [])) ++ drop 1993 (file0 (ex_at ex_inc (replicate 20 0%nat)))).
  split; [exact exs_reachable|]. split; [exact exs_synced|]. split; [exact Hc|]. split; [exact Hr|]. split; [exact (reg_mapped _ _ HR)|]. split; [exact Hm'|].
  split; [rewrite Ev; vm_compute; reflexivity|]. split; [|split; [|split]].
  - intros l c0 H1 H2. apply elem_of_list_singleton in H1 as ->. apply elem_of_list_singleton in H2 as ->. split; [left|]. eexists m', _. split; [exact Hm'|]. unfold prog_of. rewrite Ek. split; [reflexivity|]. split; cbv; intuition discriminate.
  - exists (ex_at ex_inc []), (ex_at ex_inc (replicate 20 0%nat)), (file0 (ex_at ex_inc [])), (file0 (ex_at ex_inc (replicate 20 0%nat))). split; [apply ex_at_steps|]. split; [apply (ex_at_steps ex_inc (replicate 20 0%nat))|].
    split; [eapply file0_is; [exact Hl|exact (proj1 exs_file)|vm_compute; reflexivity]|]. split; [eapply file0_is; [exact Hl|exact (proj1 exs_file)|vm_compute; reflexivity]|reflexivity].
  - apply (buf_rval _ _ _ _ 1992). rewrite Ed, v2_mapped. vm_compute. reflexivity.
  - intros m f Hm Hf. pose proof (file0_of _ _ _ _ _ Hl (proj1 exs_file) Hf) as <-. destruct (one_run_upto _ _ _ 20 Hm eq_refl) as (n & Hn & ->); [vm_compute; reflexivity|].
    apply has_val_not. assert (forallb (fun n => negb (has_val (file0 (ex_at ex_inc (replicate n 0%nat))) (VInt64 263))) (seq 0 21) = true) as F by (vm_compute; reflexivity).
    rewrite forallb_forall in F. specialize (F n). rewrite in_seq in F. apply negb_true_iff. apply F. lia.
Qed.

(** The hypotheses hold for a started client and this reader. *)
Lemma twice_pieces w c css n m1 m2 f1 f2 : rtc (cstep (w_heap w)) (m_start (world_mem w) css) m1 -> rtc (cstep (w_heap w)) m1 m2 ->
  file_of (mem_world w (mc_mem m1)) c = Some f1 -> file_of (mem_world w (mc_mem m2)) c = Some f2 -> Nat.leb n (length f1) = true -> read_in_pieces w c css (take n f1 ++ drop n f2).
Proof.
  intros H1 H2 F1 F2 Ln j b Hj. apply Nat.leb_le in Ln. apply lookup_app_Some in Hj as [Hj|[L Hj]].
  - exists m1, f1. split; [exact H1|]. split; [exact F1|]. eapply prefix_lookup; [exact Hj|]. exists (drop n f1). by rewrite take_drop.
  - rewrite lookup_drop in Hj. rewrite take_length in L, Hj. exists m2, f2. split; [by etransitivity|]. split; [exact F2|]. rewrite <- Hj. f_equal. lia.
Qed.
Lemma len_mapped r : Length (set_mapped r true) = Length r.
Proof. done. Qed.
Example C65_ex : exists c r buf, synced exs 0 ex_gen ex_pid /\ w_clients exs !! 0%nat = Some c /\ w_regs exs !! cl_reg c = Some r /\
  (forall mp m, mp ∈ [1%nat] -> h_metrics (w_heap exs) !! mp = Some m -> registered r mp \/ no_closures m) /\ (forall l c, l ∈ ex_inc -> c ∈ l -> call_ok exs [1%nat] c) /\
  zlen buf = Length r /\ read_in_pieces exs c ex_inc buf /\ has_val buf (VInt64 263) = true.
Proof.
  destruct exs_client as (c & Hc & Hl & Hr). assert (registered exr 1) as HR by (apply ex_registered; vm_compute; reflexivity).
  exists c, (set_mapped exr true), (take 1993 (file0 (ex_at ex_inc [])) ++ drop 1993 (file0 (ex_at ex_inc (replicate 20 0%nat)))).
  split; [exact exs_synced|]. split; [exact Hc|]. split; [exact Hr|]. split; [|split; [|split; [|split]]].
  - intros mp m Hin _. apply elem_of_list_singleton in Hin as ->. left. by apply reg_mapped.
  - destruct (exs_metric 1 ex_counter) as (m1 & Hm1 & Ed1 & Ek1 & _); [exact HR|rewrite exw_metric; reflexivity|]. intros l c0 H1 H2. apply elem_of_list_singleton in H1 as ->. apply elem_of_list_singleton in H2 as ->. split; [left|].
    eexists m1, _. split; [exact Hm1|]. unfold prog_of. rewrite Ek1. split; [reflexivity|]. split; cbv; intuition discriminate.
  - rewrite len_mapped. vm_compute. reflexivity.
  - apply (twice_pieces _ _ _ _ (ex_at ex_inc []) (ex_at ex_inc (replicate 20 0%nat))).
    + apply ex_at_steps.
    + apply (ex_at_steps ex_inc (replicate 20 0%nat)).
    + eapply file0_is; [exact Hl|exact (proj1 exs_file)|vm_compute; reflexivity].
    + eapply file0_is; [exact Hl|exact (proj1 exs_file)|vm_compute; reflexivity].
    + vm_compute. reflexivity.
  - vm_compute. reflexivity.
Qed.
(** Nothing is updated: one goroutine reads a value. *)
Example C65_not_updated_ex : forall mp, ~ updated [[MVal 1 None]] mp.
Proof. intros mp (l & op & mst & H1 & H2). apply elem_of_list_singleton in H1 as ->. by apply elem_of_list_singleton in H2. Qed.
(** A counter that goes from 7 to 8: the values shown differ in one byte only. *)
Definition ex_inc1 : list (list mcall) := [[MUpdate 1 (OCInc 1) false]].
Lemma run_on_all mp K p s p' s' : qsteps mp (p, s) (p', s') -> qnext mp (run_on K mp p s).1 (run_on K mp p s).2 = None -> exists k, (k <= K)%nat /\ run_on k mp p s = (p', s').
Proof.
  revert p s. induction K as [|K IH]; intros p s H E; cbn [run_on fst snd] in E.
  - exists 0%nat. split; [lia|]. cbn. inversion H as [|? [p1 s1] ? H1]; subst; [done|]. unfold qstep in H1. cbn in H1. congruence.
  - inversion H as [|? [p1 s1] ? H1 H2]; subst; [exists 0%nat; split; [lia|done]|]. change (qnext mp p s = Some (p1, s1)) in H1. rewrite H1 in E. destruct (IH _ _ H2 E) as (k & Lk & Ek). exists (Datatypes.S k). split; [lia|]. cbn [run_on]. by rewrite H1.
Qed.
Definition is78 (v : goval) : bool := bool_decide (v = VInt64 7) || bool_decide (v = VInt64 8).
Lemma is78_spec v : is78 v = true -> v = VInt64 7 \/ v = VInt64 8.
Proof. unfold is78. rewrite orb_true_iff, !bool_decide_eq_true. tauto. Qed.
Definition met78 (s : mem) : bool := match q_metrics s !! 1%nat with Some (mkMetric d _ (BSingle c)) => (md_type d =? Int64Type) && is78 (c_val c) | _ => false end.
Definition mach78 (m : machine) : bool := met78 (mc_mem m) &&
  match mc_thr m with
  | [mkThr _ (Some (MUpdate 1 _ _, p)) _] => forallb (fun k => met78 (run_on k 1 p (mc_mem m)).2) (seq 0 31) && match qnext 1 (run_on 30 1 p (mc_mem m)).1 (run_on 30 1 p (mc_mem m)).2 with None => true | Some _ => false end
  | [mkThr _ (Some _) _] => false
  | [_] => true
  | _ => false
  end.
Lemma met78_spec s mm n c : met78 s = true -> q_metrics s !! 1%nat = Some mm -> cell_at mm n = Some c -> n = None /\ md_type (m_desc mm) = Int64Type /\ is78 (c_val c) = true.
Proof.
  unfold met78. intros H E Hc. rewrite E in H. destruct mm as [d kk [c0|ip cells]]; [|discriminate]. apply andb_true_iff in H as [H1 H2]. unfold cell_at in Hc. cbn in Hc. destruct n as [i|]; [discriminate|]. apply (inj Some) in Hc as <-. split_and!; auto. cbn. lia.
Qed.
Lemma half78 old new u : is78 old = true -> is78 new = true -> half_written old new u -> vtyped Int64Type u -> is78 u = true.
Proof.
  intros Ho Hn H Hu. assert (vtyped Int64Type old /\ vtyped Int64Type new) as [To Tn]. { apply is78_spec in Ho as [-> | ->], Hn as [-> | ->]; split; split; try reflexivity; split; vm_compute; congruence. }
  destruct H as [j d d0 old new u N1 N2 N3 B0 B1 HL B2|j s0 s1|j s0 s1|old new]; [|apply is78_spec in Ho as [Ho|Ho]; discriminate Ho|apply is78_spec in Ho as [Ho|Ho]; discriminate Ho|done].
  destruct (torn_one j d d0 HL) as [E|E].
  - intros a b. apply is78_spec in Ho as [-> | ->], Hn as [-> | ->]; cbn in B0, B1; apply (inj Some) in B0, B1; subst d d0; repeat (destruct a as [|a]; [|try (intros Ha; by destruct Ha)]); repeat (destruct b as [|b]; [|try (intros ? Hb; by destruct Hb)]); done.
  - rewrite E in B2. assert (u = old) as -> by (eapply bytes_inj; eauto; congruence). done.
  - rewrite E in B2. assert (u = new) as -> by (eapply bytes_inj; eauto; congruence). done.
Qed.
Lemma shown78 m mm g u : mach78 m = true -> q_metrics (mc_mem m) !! 1%nat = Some mm -> shown_as m 1 mm g -> val_at g None = Some u -> is78 u = true.
Proof.
  unfold mach78. intros H E SA Hv. apply andb_true_iff in H as [H1 H2]. destruct SA as [->|(i & p & n & c & new & u0 & (d & op & mst & l & U) & Hc & (p' & s' & m' & W1 & W2 & W3) & HW & HT & ->)].
  - unfold val_at in Hv. destruct (cell_at mm None) as [c|] eqn:Ec; [|discriminate]. apply (inj Some) in Hv as <-. exact (proj2 (proj2 (met78_spec _ _ _ _ H1 E Ec))).
  - destruct (met78_spec _ _ _ _ H1 E Hc) as (-> & Et & Hc7). unfold val_at in Hv. rewrite (cell_at_put _ _ _ _ _ Hc), decide_True in Hv by done. cbn in Hv. apply (inj Some) in Hv as ->. rewrite Et in HT.
    destruct (mc_thr m) as [|t0 [|t1 ts]]; [done| |exfalso; destruct t0 as [? [[[mp' ? ?|? ?] ?]|] ?]; try discriminate; destruct mp' as [|[|]]; discriminate]. destruct i as [|i]; [|done]. cbn in U. apply (inj Some) in U as ->. apply andb_true_iff in H2 as [H2 H3].
    destruct (run_on_all 1 30 _ _ _ _ W1) as (k & Lk & Ek). { destruct (qnext 1 _ _); [discriminate|done]. }
    rewrite forallb_forall in H2. specialize (H2 k). rewrite in_seq, Ek in H2. specialize (H2 ltac:(lia)). cbn [snd] in H2. unfold val_at in W3. destruct (cell_at m' None) as [c'|] eqn:Ec'; [|discriminate]. apply (inj Some) in W3 as <-.
    destruct (met78_spec _ _ _ _ H2 W2 Ec') as (_ & _ & Hn). exact (half78 _ _ _ Hc7 Hn HW HT).
Qed.
Example C65_number_ex : forall u1 u2 i, once_shown exs ex_inc1 1 None u1 -> once_shown exs ex_inc1 1 None u2 -> i <> 0%nat -> in_file u1 !! i = in_file u2 !! i.
Proof.
  assert (forall u, once_shown exs ex_inc1 1 None u -> u = VInt64 7 \/ u = VInt64 8) as H.
  { intros u (m & mm & g & Hm & Emm & SA & Hv). apply is78_spec. eapply shown78; eauto. destruct (one_run_upto _ _ _ 20 Hm eq_refl) as (n & Hn & ->); [vm_compute; reflexivity|].
    assert (forallb (fun n => mach78 (ex_at ex_inc1 (replicate n 0%nat))) (seq 0 21) = true) as F by (vm_compute; reflexivity). rewrite forallb_forall in F. apply (F n), in_seq. lia. }
  intros u1 u2 i H1 H2 Hi. destruct i as [|i]; [done|]. by apply H in H1 as [-> | ->], H2 as [-> | ->].
Qed.

Print Assumptions C65_readable_partial.
Print Assumptions C65_not_updated.
Print Assumptions C65_number_partial.
Print Assumptions C65_read_value_was_there_refuted.
Print Assumptions C65_ex.
Print Assumptions C65_number_ex.
