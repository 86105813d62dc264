(** C13, C14, C16-C23: single metrics and their values.
    Vocabulary: [m_val]/[val_at m n] is Val()/ValInstance (n = None / Some i);
    [live fs m] says every update closure of [m] points into a mapping that is still
    there; it holds for metrics never started and for those of a started client
    ([C13_usable_*]). [f64_same a b]: same double up to the sign of zero and NaN payload
    (GaugeFacts.v); [holds_val] (MetricFacts.v) the same for any value. *)
From Verif Require Import Base BaseFacts Floats GoVal MetricType ByteWriter Hash Units Indom Metrics Registry Prog
  Client View RegInv World OpRuns RegFacts WorldInv Sync FloatFacts ValueFacts MetricFacts SyncLive OpFacts GaugeFacts VectorFacts
  FlocqFacts FloatMono HistFacts Example.

(** ** C13 *)
Theorem C13_usable_started w cid gen pid c r mp m : reachable w -> synced w cid gen pid -> w_clients w !! cid = Some c -> w_regs w !! cl_reg c = Some r ->
  registered r mp -> h_metrics (w_heap w) !! mp = Some m -> live (w_files w) m.
Proof. intros R. eapply synced_live, reachable_ok, R. Qed.
Theorem C13_usable_unmapped fs m : (forall n c, cell_at m n = Some c -> c_upd c = None) -> live fs m.
Proof. exact (unmapped_live fs m). Qed.
Theorem C13_set w mp m c v : reachable w -> h_metrics (w_heap w) !! mp = Some m -> m_body m = BSingle c -> live (w_files w) m -> wf_goval v ->
  (forall s, v = VStr s -> zlen s <= 256) -> IsCompatible (md_type (m_desc m)) v = true ->
  exists fs' m' x, m_set (w_files w) m v = (ROk, fs', m') /\ m_val m' = Some x /\
    (x = resolve (md_type (m_desc m)) v \/ (m_val m = Some x /\ go_eqb (resolve (md_type (m_desc m)) v) x = true)) /\
    (~ is_nan (resolve (md_type (m_desc m)) v) -> go_eqb x (resolve (md_type (m_desc m)) v) = true).
Proof.
  intros R Hm Hb HL Hw Hf Hc. destruct (set_live (w_files w) m v c Hb HL Hw Hf) as (fs' & m' & E). rewrite Hc in E.
  destruct (set_ok _ _ _ _ _ E) as (_ & x & Hx & Hh & Ho). exists fs', m', x. split_and!; auto.
  - destruct Hh as [->|Hh]; [auto|]. destruct (decide (x = resolve (md_type (m_desc m)) v)); [auto|right; auto].
  - intros Hn. eapply holds_refl_eqb; eauto. by apply resolve_typed.
Qed.
Theorem C13_rejected fs m c v : m_body m = BSingle c -> IsCompatible (md_type (m_desc m)) v = false -> m_set fs m v = (RErr, fs, m).
Proof. intros Hb Hc. unfold m_set, set_cell. rewrite Hb, Hc. by rewrite body_id. Qed.
Theorem C13_error_val fs m v o fs' m' : m_set fs m v = (o, fs', m') -> o <> ROk -> m' = m.
Proof. exact (set_fail fs m v o fs' m'). Qed.
(** Missing in the following: strings of more than 256 bytes, see [C13_error_file_refuted]. *)
Theorem C13_error_file_partial fs m v fs' m' : m_set fs m v = (RErr, fs', m') -> (forall s, v = VStr s -> zlen s <= 256) -> fs' = fs.
Proof. exact (set_err_files fs m v fs' m'). Qed.
(** Set of a string reaching past the end of the file fails, yet wipes the metric's slot. *)
Theorem C13_error_file_refuted : exists w mp m v fs' m', reachable w /\ h_metrics (w_heap w) !! mp = Some m /\ m_kind m = MSingleton /\ wf_goval v /\
  m_set (w_files w) m v = (RErr, fs', m') /\ file0 fs' <> file0 (w_files w).
Proof.
  exists exs, 2%nat. destruct (exs_metric 2 ex_string) as (m & Hm & Ed & Ek & _); [apply ex_registered; vm_compute; reflexivity|reflexivity|].
  destruct (set_damages (w_files exs) (get no_metric (h_metrics (w_heap exs) !! 2%nat)) (VStr (replicate 4000 "x"%byte))) as (fs' & m' & E & N).
  { vm_cast_no_check (eq_refl true). }
  exists m, (VStr (replicate 4000 "x"%byte)), fs', m'. rewrite Hm in E. cbn [get] in E. split; [exact exs_reachable|]. split; [exact Hm|].
  split; [by rewrite Ek|]. split; [exact I|]. split; [exact E|exact N].
Qed.
Example C13_ex : exists m c, h_metrics (w_heap exs) !! 2%nat = Some m /\ m_body m = BSingle c /\ live (w_files exs) m /\
  m_val m = Some (VStr (str "hello")) /\ IsCompatible (md_type (m_desc m)) (VStr (str "world")) = true /\
  IsCompatible (md_type (m_desc m)) (VInt 1) = false.
Proof.
  destruct (exs_metric 2 ex_string) as (m & Hm & Ed & Ek & Ev & HL & HI); [apply ex_registered; vm_compute; reflexivity|reflexivity|].
  specialize (Ev None). rewrite !val_at_single in Ev. exists m. unfold m_indom in HI. destruct (m_body m) as [c|] eqn:Hb; [|discriminate]. setoid_rewrite Ed.
  exists c. split_and!; auto.
Qed.

(** ** C14 *)
(** [no_overflow mp n tr]: no update in [tr] adds past MaxInt64, see [C14_overflow_refuted]. *)
Theorem C14_counters_partial w tr w' mp m n v : reachable w -> hist w tr w' -> h_metrics (w_heap w) !! mp = Some m ->
  (m_kind m = MCounter \/ m_kind m = MCounterVector) -> no_overflow mp n tr -> val_at m n = Some (VInt64 v) ->
  exists m' v', h_metrics (w_heap w') !! mp = Some m' /\ val_at m' n = Some (VInt64 v') /\ v <= v'.
Proof. intros R. eapply counter_hist, reachable_ok, R. Qed.
(** Counters of a reachable state always have an int64 value. *)
Theorem C14_counter_value w mp m : reachable w -> h_metrics (w_heap w) !! mp = Some m -> m_kind m = MCounter -> exists v, val_at m None = Some (VInt64 v) /\ in_signed 64 v.
Proof.
  intros R Hm Hk. pose proof (ho_metrics _ (wo_heap _ (reachable_ok _ R)) _ _ Hm) as Hok. pose proof (mo_kind _ _ Hok) as K. rewrite Hk in K.
  destruct (m_body m) as [c|] eqn:Hb; [|contradiction]. assert (val_at m None = Some (c_val c)) as Hv by (unfold val_at, cell_at; by rewrite Hb).
  destruct (counter_int _ _ _ _ Hok (or_introl Hk) Hv) as (z & E & Hz). exists z. rewrite Hv, E. auto.
Qed.
(** Exactly which calls succeed, and what they leave: Set takes every value that is not smaller, Inc every amount that is not negative. *)
Theorem C14_set w mp m v z : reachable w -> h_metrics (w_heap w) !! mp = Some m -> m_kind m = MCounter -> m_val m = Some (VInt64 v) -> live (w_files w) m -> in_signed 64 z ->
  if z <? v then counter_set (w_files w) m z = (RErr, w_files w, m)
  else exists fs' m', counter_set (w_files w) m z = (ROk, fs', m') /\ m_val m' = Some (VInt64 z).
Proof. intros R Hm Hk Hv HL. exact (counter_set_exact (w_heap w) m v (w_files w) (ho_metrics _ (wo_heap _ (reachable_ok _ R)) _ _ Hm) Hk Hv HL z). Qed.
Theorem C14_inc w mp m v z : reachable w -> h_metrics (w_heap w) !! mp = Some m -> m_kind m = MCounter -> m_val m = Some (VInt64 v) -> live (w_files w) m ->
  if z <? 0 then counter_inc (w_files w) m z = (RErr, w_files w, m)
  else exists fs' m', counter_inc (w_files w) m z = (ROk, fs', m') /\ m_val m' = Some (VInt64 (to_signed 64 (v + z))).
Proof. intros R Hm Hk Hv HL. exact (counter_inc_exact (w_heap w) m v (w_files w) (ho_metrics _ (wo_heap _ (reachable_ok _ R)) _ _ Hm) Hk Hv HL z). Qed.
Example C14_set_ex : exists m, h_metrics (w_heap exs) !! 1%nat = Some m /\ m_kind m = MCounter /\ m_val m = Some (VInt64 7) /\ live (w_files exs) m.
Proof.
  destruct (exs_metric 1 ex_counter) as (m & Hm & Ed & Ek & Ev & HL & HI); [apply ex_registered; vm_compute; reflexivity|reflexivity|].
  specialize (Ev None). rewrite !val_at_single in Ev. exists m. rewrite Ek, Ev. split_and!; auto.
Qed.
Definition max_counter : metric := get no_metric (NewPCPCounter (2 ^ 63 - 1) (str "c") []).
Theorem C14_overflow_refuted : exists w c o w' mp m m' v v', reachable w /\ wstep w c o w' /\ h_metrics (w_heap w) !! mp = Some m /\ m_kind m = MCounter /\
  h_metrics (w_heap w') !! mp = Some m' /\ m_val m = Some (VInt64 v) /\ m_val m' = Some (VInt64 v') /\ o = ROk /\ v' < v.
Proof.
  set (w := put_metric ex0 1 100 max_counter None).
  assert (reachable w) as R.
  { apply put_reachable; [exact ex0_reachable|reflexivity..|]. eapply (cr_counter _ _ (2 ^ 63 - 1) (str "c") []); [cbv; intuition discriminate|apply get_some; reflexivity]. }
  set (r := counter_inc (w_files w) max_counter 1).
  eexists w, (CUpdate 1 (OCInc 1) false), ROk, _, 1%nat, max_counter, r.2, (2 ^ 63 - 1), (- 2 ^ 63). split; [exact R|].
  split; [eapply (ws_update w 1 (OCInc 1) false max_counter ROk r.1.2 r.2); [reflexivity|reflexivity|cbv; intuition discriminate|reflexivity]|].
  split_and!; reflexivity.
Qed.
Example C14_ex : exists tr w' m, hist exw tr w' /\ h_metrics (w_heap exw) !! 1%nat = Some m /\ m_kind m = MCounter /\ no_overflow 1 None tr /\
  val_at m None = Some (VInt64 7) /\ exists m', h_metrics (w_heap w') !! 1%nat = Some m' /\ val_at m' None = Some (VInt64 12).
Proof.
  assert (h_metrics (w_heap exw) !! 1%nat = Some ex_counter) as Hm by (rewrite exw_metric; reflexivity).
  destruct (step_update exw 1 (OCInc 5) ex_counter ROk (w_files exw) (counter_inc (w_files w_init) ex_counter 5).2 exw_dead Hm) as (w' & S & Hm' & _).
  { cbv; intuition discriminate. }
  { generalize (w_files exw). generalize (w_heap exw). intros. vm_compute. reflexivity. }
  eexists _, w', ex_counter. split; [eapply hist_cons; [exact S|apply hist_nil]|]. split; [exact Hm|]. split; [reflexivity|]. split; [|split; [reflexivity|]].
  - constructor; [|constructor]. intros op mst E m v Hm1 Hv. injection E as <- <-. rewrite Hm in Hm1. injection Hm1 as <-. vm_compute in Hv. injection Hv as <-. cbv. reflexivity.
  - eexists. split; [exact Hm'|]. vm_compute. reflexivity.
Qed.

(** ** C16 *)
Section C16.
  Context (w : world) (mp : nat) (m : metric) (v : Z) (R : reachable w) (Hm : h_metrics (w_heap w) !! mp = Some m) (Hk : m_kind m = MGauge)
    (Hv : m_val m = Some (VF64 v)) (HL : live (w_files w) m).
  Let Hok : metric_ok (w_heap w) m := ho_metrics _ (wo_heap _ (reachable_ok _ R)) _ _ Hm.
  Theorem C16_set z : in_unsigned 64 z -> exists fs' m' x, gauge_set (w_files w) m z = (ROk, fs', m') /\ m_val m' = Some (VF64 x) /\ f64_same z x.
  Proof using R Hm Hk Hv HL. exact (gauge_set_ok _ _ _ _ Hok Hk Hv HL z). Qed.
  Theorem C16_inc d : in_unsigned 64 d -> exists fs' m' x, gauge_inc (w_files w) m d = (ROk, fs', m') /\ m_val m' = Some (VF64 x) /\ f64_same (f64_add v d) x.
  Proof using R Hm Hk Hv HL. exact (gauge_inc_ok _ _ _ _ Hok Hk Hv HL d). Qed.
  Theorem C16_dec d : in_unsigned 64 d -> exists fs' m' x, gauge_dec (w_files w) m d = (ROk, fs', m') /\ m_val m' = Some (VF64 x) /\ f64_same (f64_sub v d) x.
  Proof using R Hm Hk Hv HL. exact (gauge_dec_ok _ _ _ _ Hok Hk Hv HL d). Qed.
End C16.
Theorem C16_inc_zero fs m d : f64_eqb d f64_zero = true -> gauge_inc fs m d = (ROk, fs, m).
Proof. exact (gauge_inc_zero fs m d). Qed.
(** [f64_add] and [f64_sub] on bit patterns are the correctly rounded real operations. *)
Theorem C16_add_ieee x y : in_unsigned 64 x -> in_unsigned 64 y -> finite64 x -> finite64 y ->
  (Rdefinitions.Rlt (Rbasic_fun.Rabs (rnd64 (Rdefinitions.Rplus (R64 x) (R64 y)))) (Raux.bpow Zaux.radix2 1024)) ->
  finite64 (f64_add x y) /\ R64 (f64_add x y) = rnd64 (Rdefinitions.Rplus (R64 x) (R64 y)).
Proof. exact (f64_add_correct x y). Qed.
Theorem C16_sub_ieee x y : in_unsigned 64 x -> in_unsigned 64 y -> finite64 x -> finite64 y ->
  (Rdefinitions.Rlt (Rbasic_fun.Rabs (rnd64 (Rdefinitions.Rminus (R64 x) (R64 y)))) (Raux.bpow Zaux.radix2 1024)) ->
  finite64 (f64_sub x y) /\ R64 (f64_sub x y) = rnd64 (Rdefinitions.Rminus (R64 x) (R64 y)).
Proof. exact (f64_sub_correct x y). Qed.
(* the published gauge: 1.5 + 0.25 = 1.75, 1.5 - 0.25 = 1.25 *)
Example C16_ex : exists m, h_metrics (w_heap exs) !! 3%nat = Some m /\ m_kind m = MGauge /\ m_val m = Some (VF64 0x3FF8000000000000) /\ live (w_files exs) m /\
  f64_add 0x3FF8000000000000 0x3FD0000000000000 = 0x3FFC000000000000 /\ f64_sub 0x3FF8000000000000 0x3FD0000000000000 = 0x3FF4000000000000.
Proof.
  destruct (exs_metric 3 ex_gauge) as (m & Hm & Ed & Ek & Ev & HL & HI); [apply ex_registered; vm_compute; reflexivity|reflexivity|].
  specialize (Ev None). rewrite !val_at_single in Ev. exists m. rewrite Ev. split_and!; auto; vm_compute; reflexivity.
Qed.

(** ** C17 *)
Theorem C17_start fs m now s t0 : m_kind m = MTimer s t0 ->
  timer_start fs m now = if s then (RErr, fs, m) else (ROk, fs, with_kind m (MTimer true now)).
Proof. exact (timer_start_iff fs m now s t0). Qed.
Theorem C17_stop_idle fs m now t0 : m_kind m = MTimer false t0 -> timer_stop fs m now = (RErr, fs, m, 0).
Proof. exact (timer_stop_idle fs m now t0). Qed.
Theorem C17_reset_running fs m t0 : m_kind m = MTimer true t0 -> timer_reset fs m = (RErr, fs, m).
Proof. exact (timer_reset_busy fs m t0). Qed.
Theorem C17_stop_reset_succeed w mp m s t0 : reachable w -> h_metrics (w_heap w) !! mp = Some m -> m_kind m = MTimer s t0 -> live (w_files w) m ->
  (s = false -> (timer_reset (w_files w) m).1.1 = ROk) /\ (s = true -> forall now, (timer_stop (w_files w) m now).1.1.1 = ROk).
Proof. intros R Hm. apply (timer_live (w_heap w)). exact (ho_metrics _ (wo_heap _ (reachable_ok _ R)) _ _ Hm). Qed.
(** After a successful Stop or Reset the timer is stopped; a failing one changes nothing. *)
Theorem C17_stop w mp m t0 now : reachable w -> h_metrics (w_heap w) !! mp = Some m -> m_kind m = MTimer true t0 ->
  forall o fs' m' ret, timer_stop (w_files w) m now = (o, fs', m', ret) -> (o = ROk /\ exists t1, m_kind m' = MTimer false t1) \/ (o <> ROk /\ m' = m).
Proof.
  intros R Hm Hk o fs' m' ret H. pose proof (ho_metrics _ (wo_heap _ (reachable_ok _ R)) _ _ Hm) as Hok. destruct (timer_shape _ _ _ _ Hok Hk) as (_ & _ & v & Hv & _).
  destruct (timer_stop_spec _ _ _ _ _ _ Hok Hk Hv _ _ _ _ H) as [(A & B & _)|A]; auto.
Qed.
Theorem C17_reset w mp m t0 : reachable w -> h_metrics (w_heap w) !! mp = Some m -> m_kind m = MTimer false t0 ->
  forall o fs' m', timer_reset (w_files w) m = (o, fs', m') ->
  (o = ROk /\ m_kind m' = MTimer false t0 /\ exists x, m_val m' = Some (VF64 x) /\ f64_eqb f64_zero x = true) \/ (o <> ROk /\ m' = m).
Proof. intros R Hm. apply (timer_reset_spec (w_heap w)). exact (ho_metrics _ (wo_heap _ (reachable_ok _ R)) _ _ Hm). Qed.
Example C17_ex : exists m, h_metrics (w_heap exs) !! 4%nat = Some m /\ m_kind m = MTimer false 0 /\ live (w_files exs) m.
Proof.
  destruct (exs_metric 4 ex_timer) as (m & Hm & Ed & Ek & Ev & HL & HI); [apply ex_registered; vm_compute; reflexivity|reflexivity|]. exists m. auto.
Qed.

(** ** C18 *)
(** [timer_fold u mp] (HistFacts.v) is the specification: it keeps (start time, sum) and adds
    the converted duration at each successful Stop. [same_but_zero]: equal bits or both zeros. *)
Theorem C18_value w tr w' mp m s t v : reachable w -> hist w tr w' -> h_metrics (w_heap w) !! mp = Some m -> m_kind m = MTimer s t -> m_val m = Some (VF64 v) ->
  exists m' s' t' v', h_metrics (w_heap w') !! mp = Some m' /\ m_desc m' = m_desc m /\ m_kind m' = MTimer s' t' /\ m_val m' = Some (VF64 v') /\
    let st := foldl (timer_fold (md_unit (m_desc m)) mp) (run_of s t, v) tr in run_of s' t' = st.1 /\ same_but_zero v' st.2.
Proof. intros R. apply timer_hist, reachable_ok, R. Qed.
Theorem C18_stop_returns w mp m t0 now v : reachable w -> h_metrics (w_heap w) !! mp = Some m -> m_kind m = MTimer true t0 -> m_val m = Some (VF64 v) ->
  forall fs' m' ret, timer_stop (w_files w) m now = (ROk, fs', m', ret) ->
  ret = f64_add v (timer_increment (md_unit (m_desc m)) (time_since now t0)) /\ exists x, m_val m' = Some (VF64 x) /\ (x = ret \/ f64_eqb ret x = true).
Proof.
  intros R Hm Hk Hv fs' m' ret H. destruct (timer_stop_spec _ _ _ _ _ _ (ho_metrics _ (wo_heap _ (reachable_ok _ R)) _ _ Hm) Hk Hv _ _ _ _ H) as [(_ & _ & -> & x & Hx & Hc)|[N _]]; [|congruence].
  split; [reflexivity|]. exists x. split; [exact Hx|]. destruct Hc as [->|[_ Hc]]; auto.
Qed.
(** [clock_forward mp tr]: the clock does not go back between Start and Stop, and there is no Reset. *)
Theorem C18_monotone w tr w' mp m s t v : reachable w -> hist w tr w' -> h_metrics (w_heap w) !! mp = Some m -> m_kind m = MTimer s t -> m_val m = Some (VF64 v) ->
  f64_leb f64_zero v = true -> clock_forward mp tr ->
  exists m' v', h_metrics (w_heap w') !! mp = Some m' /\ m_val m' = Some (VF64 v') /\ f64_leb v v' = true.
Proof. intros R. apply timer_mono, reachable_ok, R. Qed.
(* Start at 1s, Stop at 3.5s: 2.5 *)
Example C18_ex : exists tr w' m', hist exw tr w' /\ h_metrics (w_heap w') !! 4%nat = Some m' /\ m_val m' = Some (VF64 0x4004000000000000) /\ clock_forward 4 tr.
Proof.
  assert (h_metrics (w_heap exw) !! 4%nat = Some ex_timer) as Hm by (rewrite exw_metric; reflexivity).
  set (m1 := (timer_start (w_files w_init) ex_timer 1000000000).2).
  destruct (step_update exw 4 (OTStart 1000000000) ex_timer ROk (w_files exw) m1 exw_dead Hm I) as (w1 & S1 & Hm1 & _ & D1).
  { generalize (w_files exw). generalize (w_heap exw). intros. vm_compute. reflexivity. }
  destruct (step_update w1 4 (OTStop 3500000000) m1 ROk (w_files w1) (timer_stop (w_files w_init) m1 3500000000).1.2 D1 Hm1 I) as (w2 & S2 & Hm2 & _).
  { generalize (w_files w1). generalize (w_heap w1). intros. vm_compute. reflexivity. }
  eexists _, w2, _. split; [eapply hist_cons; [exact S1|]; eapply hist_cons; [exact S2|apply hist_nil]|]. split; [exact Hm2|]. split; [vm_compute; reflexivity|].
  constructor; [split; discriminate|]. constructor; [split; [|discriminate]|constructor].
  intros now mst m t0 E Hm3 Hk. injection E as <- <-. rewrite Hm1 in Hm3. injection Hm3 as <-. vm_compute in Hk. injection Hk as <-. lia.
Qed.

(** ** C19 *)
Theorem C19_created_iff (vals : gmap gostring goval) name ip d t s u desc ord : ord ≡ₚ (map_to_list (id_insts d)).*1 ->
  is_Some (NewPCPInstanceMetric vals name ip d t s u desc ord) <->
  (name <> [] /\ zlen name <= 256 /\ (length desc <= 2)%nat /\ dom vals = dom (id_insts d) /\ forall i v, vals !! i = Some v -> IsCompatible t v = true).
Proof. exact (new_instance_iff vals name ip d t s u desc ord). Qed.
Theorem C19_values (vals : gmap gostring goval) name ip d t s u desc ord m : ord ≡ₚ (map_to_list (id_insts d)).*1 ->
  NewPCPInstanceMetric vals name ip d t s u desc ord = Some m ->
  (forall i, val_at m (Some i) = resolve t <$> vals !! i) /\ val_at m None = None /\ m_indom m = Some ip /\
  md_name (m_desc m) = name /\ md_type (m_desc m) = t /\ md_sem (m_desc m) = s /\ md_unit (m_desc m) = u.
Proof. exact (new_instance_vals vals name ip d t s u desc ord m). Qed.
Example C19_ex : NewPCPInstanceMetric {[str "a" := VInt 1; str "b" := VInt 2]} (str "m") 1 ex_cv.1 Int32Type InstantSemantics OneUnit [] (map_to_list (id_insts ex_cv.1)).*1 <> None /\
  NewPCPInstanceMetric {[str "a" := VInt 1; str "c" := VInt 2]} (str "m") 1 ex_cv.1 Int32Type InstantSemantics OneUnit [] (map_to_list (id_insts ex_cv.1)).*1 = None.
Proof. split; vm_compute; [discriminate|reflexivity]. Qed.

(** ** C20 *)
Section C20.
  Context (w : world) (mp : nat) (m : metric) (ip : nat) (cells : gmap gostring cell) (d : indom) (R : reachable w) (Hm : h_metrics (w_heap w) !! mp = Some m)
    (Hb : m_body m = BInst ip cells) (Hd : h_indoms (w_heap w) !! ip = Some d).
  Let Hok : metric_ok (w_heap w) m := ho_metrics _ (wo_heap _ (reachable_ok _ R)) _ _ Hm.
  Let t := md_type (m_desc m).
  Theorem C20_set v i : live (w_files w) m -> wf_goval v -> (forall s, v = VStr s -> zlen s <= 256) -> has_instance d i = true -> IsCompatible t v = true ->
    exists fs' m' x, m_set_instance (w_files w) d m v i = (ROk, fs', m') /\ val_at m' (Some i) = Some x /\ holds_val (resolve t v) x /\
      forall n, n <> Some i -> val_at m' n = val_at m n.
  Proof using R Hm Hb Hd.
    intros HL Hw Hf Hi Hc. destruct (set_inst_live _ _ _ _ _ _ Hok Hb Hd v i HL Hw Hf Hi Hc) as (fs' & m' & E & _).
    destruct (set_inst_ok _ _ _ _ _ _ Hok Hb Hd _ _ _ _ E) as (_ & _ & (x & A & B & _) & C). exists fs', m', x. auto.
  Qed.
  Theorem C20_reject v i : has_instance d i = false \/ IsCompatible t v = false -> m_set_instance (w_files w) d m v i = (RErr, w_files w, m).
  Proof using R Hm Hb Hd. exact (set_inst_reject _ _ _ _ _ _ Hok Hb Hd v i). Qed.
  Theorem C20_val i : val_instance d m i = if has_instance d i then Some (val_at m (Some i)) else None.
  Proof using R Hm Hb Hd. exact (val_inst _ _ _ _ _ Hok Hb Hd i). Qed.
  (** the inner option is never None: reading an instance never hits a nil entry *)
  Theorem C20_val_total i : has_instance d i = true -> exists x, val_at m (Some i) = Some x /\ vtyped t x.
  Proof using R Hm Hb Hd. exact (val_inst_some _ _ _ _ _ Hok Hb Hd i). Qed.
End C20.
Example C20_ex : exists m cells, h_metrics (w_heap exs) !! 8%nat = Some m /\ m_body m = BInst 1 cells /\ h_indoms (w_heap exs) !! 1%nat = Some ex_cv.1 /\
  live (w_files exs) m /\ has_instance ex_cv.1 (str "a") = true /\ has_instance ex_cv.1 (str "c") = false /\ val_at m (Some (str "a")) = Some (VStr (str "up")).
Proof.
  destruct (exs_metric 8 ex_inst) as (m & Hm & Ed & Ek & Ev & HL & HI); [apply ex_registered; vm_compute; reflexivity|reflexivity|].
  exists m. unfold m_indom in HI. destruct (m_body m) as [|ip cells] eqn:Hb; [discriminate|]. exists cells. rewrite Ev.
  assert (ip = 1%nat) as -> by (vm_compute in HI; congruence). split_and!; auto; vm_compute; reflexivity.
Qed.

(** ** C21 *)
Section C21.
  Context (w : world) (mp : nat) (m : metric) (ip : nat) (d : indom) (R : reachable w) (Hm : h_metrics (w_heap w) !! mp = Some m)
    (Hi : m_indom m = Some ip) (Hd : h_indoms (w_heap w) !! ip = Some d) (ord : list gostring) (Ho : ord_ok (w_heap w) m ord).
  Let Hok : metric_ok (w_heap w) m := ho_metrics _ (wo_heap _ (reachable_ok _ R)) _ _ Hm.
  Lemma vec_of : (m_kind m = MGaugeVector -> vec_like (w_heap w) ip DoubleType m) /\ (m_kind m = MCounterVector -> vec_like (w_heap w) ip Int64Type m).
  Proof using R Hm Hi.
    pose proof (mo_kind _ _ Hok) as K. split; intros Hk; rewrite Hk in K; (split; [exact Hok|split; [exact Hi|]]); destruct (m_body m); try contradiction; exact K.
  Qed.
  Theorem C21_gauge_set_all z : m_kind m = MGaugeVector -> live (w_files w) m -> in_unsigned 64 z ->
    exists fs' m', gv_set_all (w_files w) d m z ord = (ROk, fs', m') /\ forall i, has_instance d i = true -> exists x, val_at m' (Some i) = Some (VF64 x) /\ f64_same z x.
  Proof using R Hm Hi Hd Ho. intros Hk HL Hz. apply (gv_set_all_spec (w_heap w) m ip d Hd); auto. by apply vec_of. Qed.
  Theorem C21_gauge_inc_all z : m_kind m = MGaugeVector -> live (w_files w) m -> in_unsigned 64 z ->
    exists fs' m', gv_inc_all (w_files w) d m z ord = (ROk, fs', m') /\ forall i, has_instance d i = true ->
      exists v x, val_at m (Some i) = Some (VF64 v) /\ val_at m' (Some i) = Some (VF64 x) /\ f64_same (f64_add v z) x.
  Proof using R Hm Hi Hd Ho. intros Hk HL Hz. apply (gv_inc_all_spec (w_heap w) m ip d Hd); auto. by apply vec_of. Qed.
  Theorem C21_counter_inc_all z : m_kind m = MCounterVector -> live (w_files w) m -> 0 <= z ->
    exists fs' m', cv_inc_all (w_files w) d m z ord = (ROk, fs', m') /\ forall i, has_instance d i = true ->
      exists v, val_at m (Some i) = Some (VInt64 v) /\ val_at m' (Some i) = Some (VInt64 (to_signed 64 (v + z))).
  Proof using R Hm Hi Hd Ho. intros Hk HL Hz. apply (cv_inc_all_spec (w_heap w) m ip d Hd); auto. by apply vec_of. Qed.
  Theorem C21_counter_inc_all_negative z : z < 0 -> ord <> [] -> cv_inc_all (w_files w) d m z ord = (RPanic, w_files w, m).
  Proof. intros Hz Hn. destruct ord; [congruence|]. by apply cv_inc_all_negative. Qed.
  (** Missing: values larger than the new one, see [C21_counter_set_all_refuted]. *)
  Theorem C21_counter_set_all_partial z : m_kind m = MCounterVector -> live (w_files w) m -> in_signed 64 z ->
    (forall i v, has_instance d i = true -> val_at m (Some i) = Some (VInt64 v) -> v <= z) ->
    exists fs' m', cv_set_all (w_files w) d m z ord = (ROk, fs', m') /\ forall i, has_instance d i = true -> val_at m' (Some i) = Some (VInt64 z).
  Proof using R Hm Hi Hd Ho.
    intros Hk HL Hz Hle. destruct (cv_set_all_live (w_heap w) m ip d Hd (w_files w) z ord) as (fs' & m' & E); auto; [by apply vec_of|].
    exists fs', m'. split; [exact E|]. intros i Hin.
    destruct (cv_set_all_spec (w_heap w) m ip d Hd (w_files w) z ord ROk fs' m') with (i := i) as [[A _]|[A _]]; auto; [by apply vec_of|congruence].
  Qed.
End C21.
(** SetAll(3) on {a: 5, b: 1} visiting b first: panics after b was set. *)
Theorem C21_counter_set_all_refuted : exists w mp m ip d ord fs' m', reachable w /\ h_metrics (w_heap w) !! mp = Some m /\ m_kind m = MCounterVector /\
  m_indom m = Some ip /\ h_indoms (w_heap w) !! ip = Some d /\ ord_ok (w_heap w) m ord /\ live (w_files w) m /\
  cv_set_all (w_files w) d m 3 ord = (RPanic, fs', m') /\
  val_at m (Some (str "b")) = Some (VInt64 1) /\ val_at m' (Some (str "b")) = Some (VInt64 3) /\
  val_at m (Some (str "a")) = Some (VInt64 5) /\ val_at m' (Some (str "a")) = Some (VInt64 5).
Proof.
  set (r := cv_set_all (w_files exw) ex_cv.1 ex_cv.2 3 [str "b"; str "a"]).
  exists exw, 5%nat, ex_cv.2, 1%nat, ex_cv.1, [str "b"; str "a"], r.1.2, r.2. split; [exact exw_reachable|].
  split; [reflexivity|]. split; [reflexivity|]. split; [reflexivity|]. split; [reflexivity|]. split; [|split].
  - intros ip cells d Hb Hd. assert (ip = 1%nat) as -> by (vm_compute in Hb; congruence).
    assert (d = ex_cv.1) as -> by (assert (h_indoms (w_heap exw) !! 1%nat = Some ex_cv.1) as K by reflexivity; congruence).
    rewrite <- (ex_ab_perm ex_cv.1) by (vm_compute; reflexivity). apply perm_swap.
  - apply unmapped_live. intros n c Hc. destruct n as [i|]; [|vm_compute in Hc; discriminate].
    assert (forallb (fun x : gostring * cell => match c_upd x.2 with None => true | _ => false end) (match m_body ex_cv.2 with BInst _ l => map_to_list l | _ => [] end) = true) as K by (vm_compute; reflexivity).
    unfold cell_at in Hc. destruct (m_body ex_cv.2) as [|ip cells]; [discriminate|]. rewrite forallb_forall in K. specialize (K (i, c)). cbn in K.
    destruct (c_upd c); [|reflexivity]. discriminate K. apply elem_of_list_In. by apply elem_of_map_to_list.
  - split_and!; vm_compute; reflexivity.
Qed.
Example C21_ex : exists m, h_metrics (w_heap exs) !! 6%nat = Some m /\ m_kind m = MGaugeVector /\ m_indom m = Some 2%nat /\ h_indoms (w_heap exs) !! 2%nat = Some ex_gv.1 /\
  live (w_files exs) m /\ val_at m (Some (str "a")) = Some (VF64 0x3FF8000000000000).
Proof.
  destruct (exs_metric 6 ex_gv.2) as (m & Hm & Ed & Ek & Ev & HL & HI); [apply ex_registered; vm_compute; reflexivity|reflexivity|].
  exists m. rewrite Ev, Ek, HI. split_and!; auto; vm_compute; reflexivity.
Qed.

(** ** C22 *)
Theorem C22_bounds low high sig : low <= high -> let '(l, h, s) := normalize low high sig in 0 <= l /\ l <= h /\ h <= 3600000000 /\ 1 <= s <= 5.
Proof. exact (normalize_bounds low high sig). Qed.
Theorem C22_bounds_kept low high sig : 0 <= low -> high <= 3600000000 -> low <= high -> 1 <= sig <= 5 -> normalize low high sig = (low, high, sig).
Proof. exact (normalize_id low high sig). Qed.
(** Every argument out of range becomes the nearest one in range. *)
Theorem C22_nearest low high sig : normalize low high sig = (Z.max 0 (Z.min 3600000000 low), Z.max 0 (Z.min 3600000000 high), Z.max 1 (Z.min 5 sig)).
Proof. unfold normalize, HistogramMin, HistogramMax. repeat case_match; f_equal; try f_equal; lia. Qed.
Example C22_nearest_ex : normalize (-3) 4000000000 9 = (0, 3600000000, 5) /\ normalize 5 7 0 = (5, 7, 1).
Proof. split; reflexivity. Qed.
Theorem C22_params name low high sig u desc ip d ord p m : NewPCPHistogram name low high sig u desc ip d ord = Some (p, m) -> low <= high /\ p = normalize low high sig.
Proof.
  unfold NewPCPHistogram. destruct (high <? low) eqn:E; [discriminate|]. intros H. split; [lia|]. destruct (new_desc _ _ _ _ _); [|discriminate].
  destruct (new_inst_body _ _ _ _ _ _); [|discriminate]. congruence.
Qed.
(** Exactly which arguments are accepted; in particular low = high is. *)
Theorem C22_created_iff name low high sig u desc ip ord : ord ≡ₚ (map_to_list (id_insts histogramIndom)).*1 ->
  is_Some (NewPCPHistogram name low high sig u desc ip histogramIndom ord) <-> (low <= high /\ name <> [] /\ zlen name <= 256 /\ (length desc <= 2)%nat).
Proof. exact (new_histogram_iff name low high sig u desc ip ord). Qed.
Example C22_created_ex : is_Some (NewPCPHistogram (str "h") 5 5 3 OneUnit [] 0 histogramIndom (map_to_list (id_insts histogramIndom)).*1) /\
  NewPCPHistogram (str "h") 6 5 3 OneUnit [] 0 histogramIndom (map_to_list (id_insts histogramIndom)).*1 = None.
Proof. split; vm_compute; eauto. Qed.
(** [stat_of s i] (VectorFacts.v): the statistic of the library shown by instance [i]. *)
Theorem C22_record w mp m s : reachable w -> h_metrics (w_heap w) !! mp = Some m -> m_kind m = MHistogram -> live (w_files w) m ->
  in_unsigned 64 (hs_mean s) -> in_unsigned 64 (hs_stddev s) ->
  exists fs' m', hist_record (w_files w) histogramIndom m (Some s) = (ROk, fs', m') /\
    forall i z, stat_of s i = Some z -> exists x, val_at m' (Some i) = Some (VF64 x) /\ f64_same z x.
Proof.
  intros R Hm Hk HL H1 H2. pose proof (reachable_ok _ R) as W. pose proof (ho_metrics _ (wo_heap _ W) _ _ Hm) as Hok. pose proof (mo_kind _ _ Hok) as K. rewrite Hk in K.
  assert (vec_like (w_heap w) 0 DoubleType m) as V.
  { split; [exact Hok|]. unfold m_indom. destruct (m_body m); [contradiction|]. destruct K as [K ->]. auto. }
  destruct (hist_update_live (w_heap w) histogramIndom (wo_hist _ W) (w_files w) m s V HL H1 H2) as (fs' & m' & E).
  { intros i Hi. assert (forallb (has_instance histogramIndom) histogramInstances = true) as F by (vm_compute; reflexivity). rewrite forallb_forall in F. by apply F, elem_of_list_In. }
  exists fs', m'. split; [exact E|]. exact (hist_update_ok (w_heap w) histogramIndom (wo_hist _ W) (w_files w) m s fs' m' V H1 H2 E).
Qed.
Theorem C22_failed_record fs d m : hist_record fs d m None = (RErr, fs, m).
Proof. reflexivity. Qed.
Example C22_ex : exists m, h_metrics (w_heap exs) !! 7%nat = Some m /\ m_kind m = MHistogram /\ live (w_files exs) m /\ ex_hist.1 = (0, 1000, 3) /\
  stat_of (mkStats 3 9 0x4018000000000000 0x4008000000000000) (str "variance") = Some 0x4022000000000000.
Proof.
  destruct (exs_metric 7 ex_hist.2) as (m & Hm & Ed & Ek & Ev & HL & HI); [apply ex_registered; vm_compute; reflexivity|reflexivity|].
  exists m. rewrite Ek. split_and!; auto; vm_compute; reflexivity.
Qed.

(** ** C23 *)
(** High() and Low() are swapped (/repo/metrics.go:1448-1451). *)
Theorem C23_refuted : exists lowest highest, lowest <= highest /\ (hist_Low lowest highest <> lowest \/ hist_High lowest highest <> highest) /\
  hist_High lowest highest < hist_Low lowest highest.
Proof. exists 1, 1000. unfold hist_Low, hist_High. lia. Qed.
(** What they do return; missing: the right way round. *)
Theorem C23_swapped_partial lowest highest : hist_Low lowest highest = highest /\ hist_High lowest highest = lowest.
Proof. split; reflexivity. Qed.
Example C23_ex : hist_Low 1 1000 = 1000.
Proof. reflexivity. Qed.

Print Assumptions C13_usable_started.
Print Assumptions C13_usable_unmapped.
Print Assumptions C13_set.
Print Assumptions C13_rejected.
Print Assumptions C13_error_val.
Print Assumptions C13_error_file_partial.
Print Assumptions C13_error_file_refuted.
Print Assumptions C14_counters_partial.
Print Assumptions C14_counter_value.
Print Assumptions C14_set.
Print Assumptions C14_inc.
Print Assumptions C14_overflow_refuted.
Print Assumptions C16_set.
Print Assumptions C16_inc.
Print Assumptions C16_dec.
Print Assumptions C16_inc_zero.
Print Assumptions C16_add_ieee.
Print Assumptions C16_sub_ieee.
Print Assumptions C17_start.
Print Assumptions C17_stop_idle.
Print Assumptions C17_reset_running.
Print Assumptions C17_stop_reset_succeed.
Print Assumptions C17_stop.
Print Assumptions C17_reset.
Print Assumptions C18_value.
Print Assumptions C18_stop_returns.
Print Assumptions C18_monotone.
Print Assumptions C19_created_iff.
Print Assumptions C19_values.
Print Assumptions C20_set.
Print Assumptions C20_reject.
Print Assumptions C20_val.
Print Assumptions C20_val_total.
Print Assumptions C21_gauge_set_all.
Print Assumptions C21_gauge_inc_all.
Print Assumptions C21_counter_inc_all.
Print Assumptions C21_counter_inc_all_negative.
Print Assumptions C21_counter_set_all_partial.
Print Assumptions C21_counter_set_all_refuted.
Print Assumptions C22_bounds.
Print Assumptions C22_bounds_kept.
Print Assumptions C22_nearest.
Print Assumptions C22_params.
Print Assumptions C22_created_iff.
Print Assumptions C22_record.
Print Assumptions C22_failed_record.
Print Assumptions C23_refuted.
Print Assumptions C23_swapped_partial.
