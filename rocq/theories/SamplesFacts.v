(** Running the example programs. *)
From Verif Require Import Base BaseFacts Floats GoVal MetricType ByteWriter Hash Units Indom Metrics Registry Prog
  Client Mmvdump View RegInv World OpRuns RegFacts WorldInv Sync StartLive FloatFacts ValueFacts MetricFacts SyncLive OpFacts VectorFacts HistFacts
  SyncView Life Parse NewFacts Example Samples.

(** ** Sequencing *)
Lemma surely_mono w ss (Q Q' : world -> Prop) : surely w ss Q -> (forall w', Q w' -> Q' w') -> surely w ss Q'.
Proof. intros [A B] H. split; [exact A|]. intros b w' E. destruct (B _ _ E). auto. Qed.
Lemma surely_nil w (Q : world -> Prop) : Q w -> surely w [] Q.
Proof. intros H. split; [exists w; constructor|]. intros b w' E. inversion E; subst. auto. Qed.
Lemma surely_call w f cl ss (Q : world -> Prop) : f w = Some cl -> (exists w1, wstep w cl ROk w1) ->
  (forall o w1, wstep w cl o w1 -> o = ROk /\ surely w1 ss Q) -> surely w (GCall f :: ss) Q.
Proof.
  intros Hf [w1 S1] H. split.
  - destruct (H _ _ S1) as [_ [[w' E] _]]. exists w'. by eapply ex_call.
  - intros b w' E. inversion E as [| | | | |w0 f0 cl0 w2 ss0 b0 w0' F1 F2 F3|w0 f0 cl0 o w2 ss0 F1 F2 F3|w0 f0 ss0 F1]; subst.
    + rewrite Hf in F1. injection F1 as <-. destruct (H _ _ F2) as [_ [_ K]]. by apply K.
    + rewrite Hf in F1. injection F1 as <-. destruct (H _ _ F2) as [-> _]. done.
    + rewrite Hf in F1. done.
Qed.
Lemma exec_app w s1 s2 b w' : exec w (s1 ++ s2) b w' ->
  (exists w1, exec w s1 true w1 /\ exec w1 s2 b w') \/ (b = false /\ exec w s1 false w').
Proof.
  revert w. induction s1 as [|s s1 IH]; intros w E; [left; exists w; split; [constructor|exact E]|].
  inversion E; subst; try (right; split; [reflexivity|]; econstructor; eauto; fail);
    (destruct (IH _ ltac:(eassumption)) as [(w2 & A & B)|[-> A]]; [left; exists w2; split; [econstructor; eauto|exact B]|right; split; [reflexivity|econstructor; eauto]]).
Qed.
Lemma exec_app_ok w s1 s2 w1 b w' : exec w s1 true w1 -> exec w1 s2 b w' -> exec w (s1 ++ s2) b w'.
Proof.
  intros E. remember true as t eqn:Et. revert Et. induction E; intros Et E2; try discriminate Et; cbn; auto; econstructor; eauto.
Qed.
Lemma surely_app w s1 s2 (Q1 Q : world -> Prop) : surely w s1 Q1 -> (forall w1, Q1 w1 -> surely w1 s2 Q) -> surely w (s1 ++ s2) Q.
Proof.
  intros [[w1 E1] H1] H2. split.
  - destruct (H1 _ _ E1) as [_ q]. destruct (H2 _ q) as [[w2 E2] _]. exists w2. by eapply exec_app_ok.
  - intros b w' E. apply exec_app in E as [(w2 & A & B)|[-> A]].
    + destruct (H1 _ _ A) as [_ q]. destruct (H2 _ q) as [_ K]. by apply K.
    + by destruct (H1 _ _ A).
Qed.
Lemma surely_rounds (Inv : nat -> world -> Prop) body n w : Inv 0%nat w -> (forall i w1, Inv i w1 -> surely w1 (body i) (Inv (S i))) -> surely w (rounds n body) (Inv n).
Proof.
  intros H0 Hs. unfold rounds. induction n as [|n IH]; [by apply surely_nil|].
  rewrite seq_S, map_app, concat_app. cbn [map concat]. rewrite app_nil_r. eapply surely_app; [exact IH|]. intros w1 H. by apply Hs.
Qed.

(** ** Statements *)
Definition okw (w : world) : Prop := reachable w /\ w_dead w = false.
Lemma s_new w mp m ss (Q : world -> Prop) ip : okw w -> h_metrics (w_heap w) !! mp = None -> h_indoms (w_heap w) !! ip = None -> created (w_heap w) ip m None ->
  (okw (new_metric w mp m) -> surely (new_metric w mp m) ss Q) -> surely w (GNew mp (Some m) :: ss) Q.
Proof.
  intros [R D] Hm Hi Hc H. assert (okw (new_metric w mp m)) as O.
  { split; [|reflexivity]. exact (put_reachable w mp ip m None R D Hm Hi Hc). }
  destruct (H O) as [[w' E] K]. split; [exists w'; by constructor|]. intros b w2 E2. inversion E2; subst. by apply K.
Qed.
Lemma s_indom w ip d name insts desc ss (Q : world -> Prop) : okw w -> h_indoms (w_heap w) !! ip = None -> new_indom name insts desc = Some d ->
  (okw (new_domain w ip d) -> surely (new_domain w ip d) ss Q) -> surely w (GIndom ip (Some d) :: ss) Q.
Proof.
  intros [R D] Hi Hc H. assert (okw (new_domain w ip d)) as O.
  { split; [|reflexivity]. eapply reachable_step; [exact R|]. exact (ws_new_indom w ip name insts desc d D Hi Hc). }
  destruct (H O) as [[w' E] K]. split; [exists w'; by constructor|]. intros b w2 E2. inversion E2; subst. by apply K.
Qed.
(** A call with one possible result. *)
Lemma s_call w f cl w1 ss (Q : world -> Prop) : okw w -> f w = Some cl -> wstep w cl ROk w1 -> w_dead w1 = false ->
  (forall o w2, wstep w cl o w2 -> o = ROk /\ w2 = w1) -> (okw w1 -> surely w1 ss Q) -> surely w (GCall f :: ss) Q.
Proof.
  intros [R D] Hf Hs Hd Hu H. eapply surely_call; [exact Hf|eauto|]. intros o w2 S2. destruct (Hu _ _ S2) as [-> ->]. split; [reflexivity|].
  apply H. split; [|exact Hd]. eapply reachable_step; eauto.
Qed.
Lemma s_client w name loc ss (Q : world -> Prop) : okw w -> w_regs w !! 0%nat = None -> w_clients w !! 0%nat = None ->
  let w1 := mkWorld (w_heap w) (<[0%nat := new_registry]> (w_regs w))
    (<[0%nat := mkClient loc (hash name PCPClusterIDBitLength) ProcessFlag 0 None]> (w_clients w)) (w_files w) (w_paths w) (w_offs w) false in
  (okw w1 -> surely w1 ss Q) -> surely w (new_client name loc ++ ss) Q.
Proof.
  intros O Hr Hc w1 H. pose proof O as [_ D]. unfold new_client. cbn [app].
  eapply s_call with (w1 := set_regs w (<[0%nat := new_registry]> (w_regs w))); [exact O|reflexivity|by constructor|exact D| |].
  { intros o w2 S2. inversion S2; subst. auto. }
  intros O1. eapply s_call with (w1 := w1); [exact O1|reflexivity| |reflexivity| |exact H].
  - refine (ws_new_client (set_regs w (<[0%nat := new_registry]> (w_regs w))) 0 name loc 0 D Hc _). cbn. rewrite lookup_insert. eauto.
  - intros o w2 S2. inversion S2; subst. auto.
Qed.
Lemma s_register w mp r m r' ss (Q : world -> Prop) : okw w -> w_regs w !! 0%nat = Some r -> h_metrics (w_heap w) !! mp = Some m -> add_metric (w_heap w) r mp m = (ROk, r') ->
  let w1 := set_regs w (<[0%nat := r']> (w_regs w)) in (okw w1 -> surely w1 ss Q) -> surely w (register mp :: ss) Q.
Proof.
  intros O Hr Hm Ha w1 H. pose proof O as [_ D]. eapply s_call with (w1 := w1); [exact O|reflexivity|by eapply ws_add_metric|exact D| |exact H].
  intros o w2 S2. inversion S2 as [| | | |w0 rid0 mp0 r0 m0 o0 r0' E1 E2 E3 E4| | | | | | | | | | |]; subst. assert (r0 = r) as -> by congruence. assert (m0 = m) as -> by congruence.
  rewrite Ha in E4. injection E4 as <- <-. auto.
Qed.
Lemma s_register_indom w ip r d r' ss (Q : world -> Prop) : okw w -> w_regs w !! 0%nat = Some r -> h_indoms (w_heap w) !! ip = Some d -> add_indom r ip d = Some r' ->
  let w1 := set_regs w (<[0%nat := r']> (w_regs w)) in (okw w1 -> surely w1 ss Q) -> surely w (register_indom ip :: ss) Q.
Proof.
  intros O Hr Hd Ha w1 H. pose proof O as [_ D]. eapply s_call with (w1 := w1); [exact O|reflexivity| |exact D| |exact H].
  - pose proof (ws_add_indom w 0 ip r d D Hr Hd) as S1. rewrite Ha in S1. exact S1.
  - intros o w2 S2. inversion S2 as [| | | | |w0 rid0 ip0 r0 d0 E1 E2 E3| | | | | | | | | |]; subst. assert (r0 = r) as -> by congruence. assert (d0 = d) as -> by congruence.
    rewrite Ha. auto.
Qed.

(** ** After Start *)
(** What the program knows of a metric: description, kind, domain and values. *)
Definition is_m (w : world) (mp : nat) (D : mdesc) (K : mkind) (I : option nat) (f : option gostring -> option goval) : Prop :=
  exists m, h_metrics (w_heap w) !! mp = Some m /\ m_desc m = D /\ m_kind m = K /\ m_indom m = I /\ forall n, val_at m n = f n.

Record running (w : world) (loc : gostring) (cluster : Z) (r : registry) (gen pid : Z) : Prop := {
  ru_ok : okw w; ru_synced : synced w 0 gen pid;
  ru_client : exists wr, w_clients w !! 0%nat = Some (mkClient loc cluster ProcessFlag 0 (Some wr));
  ru_reg : w_regs w !! 0%nat = Some (set_mapped r true) }.

Lemma s_start w loc cluster wr0 r gen pid ss (Q : world -> Prop) : okw w -> w_clients w !! 0%nat = Some (mkClient loc cluster ProcessFlag 0 wr0) -> w_regs w !! 0%nat = Some r ->
  startable (w_heap w) r ->
  (forall w1, running w1 loc cluster r gen pid -> h_indoms (w_heap w1) = h_indoms (w_heap w) ->
     (forall mp m, h_metrics (w_heap w) !! mp = Some m -> is_m w1 mp (m_desc m) (m_kind m) (m_indom m) (val_at m)) -> surely w1 ss Q) ->
  surely w (must_start gen pid :: ss) Q.
Proof.
  intros [R D] Hc Hr Hs H. pose proof (reachable_ok _ R) as W. eapply surely_call; [reflexivity| |].
  - destruct (start_possible w 0 _ r gen pid (fresh (dom (f_writers (w_files w)))) (fresh (dom (f_inodes (w_files w)))) W D Hc Hr Hs) as (s & S1 & _);
      [apply not_elem_of_dom, is_fresh|apply not_elem_of_dom, is_fresh|eauto].
  - intros o w1 S1. assert (o = ROk) as ->.
    { inversion S1 as [| | | | | | | | | |w0 cid0 g0 p0 c0 r0 ino s E1 E2 E3 E4 E5| | | | |]; subst; [reflexivity|].
      exfalso. assert (c0 = mkClient loc cluster ProcessFlag 0 wr0) as -> by congruence. cbn in E3. assert (r0 = r) as -> by congruence. eapply start_not_panics; eauto. }
    split; [reflexivity|]. destruct (start_step _ _ _ _ _ _ _ R Hc Hr Hs S1) as (W1 & Sy & Hr1 & wr & Hc1).
    inversion S1 as [| | | | | | | | |w0 cid0 g0 p0 c0 r0 wr1 ino s E1 E2 E3 E4 E5 E6| | | | | |]; subst. assert (c0 = mkClient loc cluster ProcessFlag 0 wr0) as -> by congruence.
    cbn [cl_reg] in E3. assert (r0 = r) as -> by congruence. apply H.
    + split; [split; [eapply reachable_step; eauto|reflexivity]|exact Sy|exists wr; exact Hc1|exact Hr1].
    + reflexivity.
    + intros mp m Hm. unfold is_m. eexists. unfold started. cbn [w_heap]. rewrite set_upds_lookup, Hm. split; [reflexivity|]. split; [reflexivity|]. split; [reflexivity|].
      split; [apply upds_indom|]. intros n. unfold val_at. rewrite cell_at_upds. destruct (cell_at m n); [|reflexivity]. cbn. by rewrite set_cell_val.
Qed.

(** One update that is known to succeed. *)
Lemma s_update w loc cluster r gen pid f mp op mst m fs' m' ss (Q : world -> Prop) : running w loc cluster r gen pid -> f w = Some (CUpdate mp op mst) ->
  h_metrics (w_heap w) !! mp = Some m -> op_args (w_heap w) m op -> op_fits op ->
  run_op (w_files w) (w_heap w) m op = Some (ROk, fs', m') ->
  (forall w1, running w1 loc cluster r gen pid -> h_indoms (w_heap w1) = h_indoms (w_heap w) -> h_metrics (w_heap w1) = <[mp := m']> (h_metrics (w_heap w)) -> surely w1 ss Q) ->
  surely w (GCall f :: ss) Q.
Proof.
  intros [O Sy [wr Hc] Hr] Hf Hm Ha Hfit Hrun H. pose proof O as [R D]. pose proof (reachable_ok _ R) as W.
  assert (wstep w (CUpdate mp op mst) ROk (mkWorld (mkHeap (h_indoms (w_heap w)) (<[mp := m']> (h_metrics (w_heap w)))) (w_regs w) (w_clients w) fs' (w_paths w) (w_offs w) false)) as S1.
  { apply (ws_update w mp op mst m ROk fs' m'); auto. destruct mst; rewrite Hrun; reflexivity. }
  eapply s_call; [exact O|exact Hf|exact S1|reflexivity| |].
  - intros o w2 S2. inversion S2 as [| | | | | | | | | | | | | | |w0 mp0 op0 mst0 m0 o0 fs0 m0' E1 E2 E3 E4]; subst. assert (m0 = m) as -> by congruence.
    rewrite Hrun in E4. destruct mst; cbn in E4; injection E4 as <- <- <-; auto.
  - intros O1. apply H; [|reflexivity|reflexivity]. split; [exact O1| |exists wr; exact Hc|exact Hr].
    eapply synced_step; eauto. intros c0 r0 _ _. cbn. auto.
Qed.
Lemma s_stop w loc cluster r gen pid erase : running w loc cluster r gen pid ->
  surely w [must_stop erase] (fun w' => okw w' /\ w_heap w' = w_heap w /\ (w_paths w' !! loc = if erase then None else w_paths w !! loc) /\
    (forall ino, f_inodes (w_files w') !! ino = f_inodes (w_files w) !! ino) /\
    forall mp m n c, registered r mp -> h_metrics (w_heap w) !! mp = Some m -> cell_at m n = Some c ->
      exists cl x, c_upd c = Some cl /\ f_writers (w_files w') !! cl_writer cl = Some x /\ wr_live x = false).
Proof.
  intros [[R D] Sy [wr Hc] Hr]. pose proof Sy as (c & r' & wr' & ino & pl & ad & am & buf & Hc' & Hr' & Hmap & Hwr & Hpath & Syn).
  assert (c = mkClient loc cluster ProcessFlag 0 (Some wr)) as -> by congruence. cbn [cl_reg cl_wr cl_loc] in *. assert (r' = set_mapped r true) as -> by congruence. injection Hwr as <-.
  eapply s_call with (w1 := (stopped w 0 (mkClient loc cluster ProcessFlag 0 (Some wr)) (set_mapped r true) erase).2); [split; assumption|reflexivity| | | |].
  - eapply ws_stop; eauto. unfold stopped. cbn [cl_wr cl_loc]. rewrite Hpath. by destruct erase.
  - unfold stopped. cbn [cl_wr]. by destruct erase.
  - intros o w2 S2. inversion S2 as [| | | | | | | | | | | |w0 cid0 e0 os0 c0 r0 E1 E2 E3 E4|w0 cid0 e0 c0 r0 o0 w0' E1 E2 E3 E4 E5| |]; subst.
    + exfalso. assert (c0 = mkClient loc cluster ProcessFlag 0 (Some wr)) as -> by congruence. cbn in E3. assert (r0 = set_mapped r true) as -> by congruence. discriminate E4.
    + assert (c0 = mkClient loc cluster ProcessFlag 0 (Some wr)) as -> by congruence. cbn [cl_reg] in E3. assert (r0 = set_mapped r true) as -> by congruence.
      rewrite E5. split; [|reflexivity]. unfold stopped in E5. cbn [cl_wr cl_loc] in E5. rewrite Hpath in E5. destruct erase; injection E5 as <- _; reflexivity.
  - assert (forall mp m n c, registered r mp -> h_metrics (w_heap w) !! mp = Some m -> cell_at m n = Some c ->
      exists cl x, c_upd c = Some cl /\ f_writers (unmap_writer (w_files w) wr) !! cl_writer cl = Some x /\ wr_live x = false) as HD.
    { intros mp m n c Hreg Hm Hcell. pose proof (reachable_ok _ R) as W.
      destruct (sync_value_slot (w_heap w) (w_files w) (start_cfg (mkClient loc cluster ProcessFlag 0 (Some wr)) (set_mapped r true) gen pid) _ _ _ _ _ _ _ _ _ _ (wo_heap _ W) (wo_regs _ W _ _ Hr) Syn Hreg Hm Hcell) as (off & Hu & _).
      pose proof (sy_writer _ _ _ _ _ _ _ _ _ Syn) as Hw. eexists _, (mkWriter ino false). split; [exact Hu|]. split; [|reflexivity]. unfold unmap_writer. cbn. rewrite Hw. apply lookup_insert. }
    intros O1. apply surely_nil. split; [exact O1|]. unfold stopped. cbn [cl_wr cl_loc]. destruct erase; cbn.
    + split; [reflexivity|]. split; [apply lookup_delete|]. split; [intros i; apply unmap_inode|exact HD].
    + split; [reflexivity|]. split; [reflexivity|]. split; [intros i; apply unmap_inode|exact HD].
Qed.

(** ** Updates by value *)
Definition one (v : goval) : option gostring -> option goval := fun n => match n with None => Some v | Some _ => None end.
Definition upd1 (f : option gostring -> option goval) (i : gostring) (v : goval) : option gostring -> option goval :=
  fun n => if decide (n = Some i) then Some v else f n.
(** Not a float: Go equality is equality. *)
Definition plain_val (x : goval) : Prop := forall y, go_eqb x y = true -> y = x.
Lemma plain_ok x : match x with VF32 _ | VF64 _ | VOther => False | _ => True end -> plain_val x.
Proof.
  intros H y E. destruct x; try contradiction; destruct y; cbn in E; try discriminate E; try (apply Z.eqb_eq in E; by subst).
  apply bool_decide_eq_true in E. by subst.
Qed.
Lemma is_m_other w w1 mp mp' m' D K I f : h_metrics (w_heap w1) = <[mp := m']> (h_metrics (w_heap w)) -> mp' <> mp -> is_m w mp' D K I f -> is_m w1 mp' D K I f.
Proof. intros E N (m & Hm & H). exists m. rewrite E, lookup_insert_ne by congruence. auto. Qed.
Lemma is_m_ext w mp D K I f g : is_m w mp D K I f -> (forall n, f n = g n) -> is_m w mp D K I g.
Proof. intros (m & H1 & H2 & H3 & H4 & H5) E. exists m. split_and!; auto. intros n. by rewrite H5. Qed.
Lemma frame_kind fs hp m op (mst : bool) o fs' m' : metric_ok hp m -> op_args hp m op -> run_op fs hp m op = Some (o, fs', m') ->
  m_desc m' = m_desc m /\ m_indom m' = m_indom m.
Proof.
  intros Hok Ha Hr. destruct (update_runs fs hp m op false _ _ _ Hok Ha Hr) as [R _]. destruct (mrun_frame _ hp _ _ _ _ _ R Hok) as (_ & A & B & _). auto.
Qed.

Section upd.
  Context (w : world) (loc : gostring) (cluster : Z) (r : registry) (gen pid : Z) (mp : nat) (D : mdesc) (RU : running w loc cluster r gen pid) (Reg : registered r mp).
  Context (f : world -> option call) (mst : bool) (ss : list gstmt) (Q : world -> Prop).
  Definition keeps_others (w1 : world) : Prop := forall mp' D' K' I' g, mp' <> mp -> is_m w mp' D' K' I' g -> is_m w1 mp' D' K' I' g.

  Lemma ru_live m : h_metrics (w_heap w) !! mp = Some m -> live (w_files w) m /\ metric_ok (w_heap w) m.
  Proof using RU Reg.
    intros Hm. destruct RU as [[R Hd] Sy [wr Hc] Hr]. pose proof (reachable_ok _ R) as W. split; [|exact (ho_metrics _ (wo_heap _ W) _ _ Hm)].
    eapply synced_live; eauto.
  Qed.
  Lemma s_set v x g : is_m w mp D MSingleton None g -> f w = Some (CUpdate mp (OSet v) mst) -> wf_goval v -> (forall s, v = VStr s -> zlen s <= 256) ->
    IsCompatible (md_type D) v = true -> resolve (md_type D) v = x -> plain_val x ->
    (forall w1, running w1 loc cluster r gen pid -> h_indoms (w_heap w1) = h_indoms (w_heap w) -> keeps_others w1 -> is_m w1 mp D MSingleton None (one x) -> surely w1 ss Q) ->
    surely w (GCall f :: ss) Q.
  Proof using RU Reg.
    intros (m & Hm & <- & Hk & Hi & Hv) Hf Hw Hs Hc Hx Hp H. destruct (ru_live _ Hm) as [HL Hok].
    assert (exists c, m_body m = BSingle c) as [c Hb] by (unfold m_indom in Hi; destruct (m_body m); [eauto|discriminate]).
    destruct (set_live (w_files w) m v c Hb HL Hw Hs) as (fs' & m' & E). rewrite Hc in E.
    assert (run_op (w_files w) (w_heap w) m (OSet v) = Some (ROk, fs', m')) as Hrun by (unfold run_op; rewrite Hk, E; reflexivity).
    assert (op_args (w_heap w) m (OSet v)) as Ha by exact Hw. destruct (frame_kind _ _ _ _ mst _ _ _ Hok Ha Hrun) as [E1 E2].
    assert (m_kind m' = m_kind m) as E3.
    { rewrite (m_set_eq _ _ _ _ Hb Hc) in E. destruct (store_cell _ _ _) as [[o1 fs1] c1]. injection E as _ _ <-. unfold put_cell. rewrite Hb. reflexivity. }
    eapply s_update; [exact RU|exact Hf|exact Hm|exact Ha| |exact Hrun|].
    { cbn. destruct v; auto. }
    intros w1 RU1 Hin Hms. apply H; auto.
    - intros mp' D' K' I' g' N M. eapply is_m_other; eauto.
    - exists m'. rewrite Hms, lookup_insert. split_and!; auto; try congruence. intros n. destruct (set_ok _ _ _ _ _ E) as (_ & y & Hy & Hh & _).
      assert (y = x) as -> by (destruct Hh as [->|Hh]; [exact Hx|apply Hp; by rewrite <- Hx]).
      destruct n as [i|]; [|by rewrite val_at_single]. unfold val_at, cell_at. rewrite Hi in E2. unfold m_indom in E2. destruct (m_body m'); [reflexivity|discriminate].
  Qed.
  Lemma s_up v g : is_m w mp D MCounter None g -> g None = Some (VInt64 v) -> f w = Some (CUpdate mp OCUp mst) ->
    (forall w1, running w1 loc cluster r gen pid -> h_indoms (w_heap w1) = h_indoms (w_heap w) -> keeps_others w1 -> is_m w1 mp D MCounter None (one (VInt64 (to_signed 64 (v + 1)))) -> surely w1 ss Q) ->
    surely w (GCall f :: ss) Q.
  Proof using RU Reg.
    intros (m & Hm & <- & Hk & Hi & Hv) Hg Hf H. destruct (ru_live _ Hm) as [HL Hok].
    assert (m_val m = Some (VInt64 v)) as Hv0 by (rewrite <- val_at_single, Hv; exact Hg).
    destruct (counter_inc_exact (w_heap w) m v (w_files w) Hok Hk Hv0 HL 1) as (fs' & m' & E & Hv').
    assert (run_op (w_files w) (w_heap w) m OCUp = Some (ROk, fs', m')) as Hrun by (unfold run_op; rewrite Hk; unfold counter_up; rewrite E; reflexivity).
    assert (op_args (w_heap w) m OCUp) as Ha by exact I. destruct (frame_kind _ _ _ _ mst _ _ _ Hok Ha Hrun) as [E1 E2].
    assert (exists c, m_body m = BSingle c) as [c Hb] by (unfold m_indom in Hi; destruct (m_body m); [eauto|discriminate]).
    eapply s_update; [exact RU|exact Hf|exact Hm|exact Ha|exact I|exact Hrun|].
    intros w1 RU1 Hin Hms. apply H; auto.
    - intros mp' D' K' I' g' N M. eapply is_m_other; eauto.
    - exists m'. rewrite Hms, lookup_insert. split_and!; auto; try congruence.
      + destruct RU as [[R Hd] _ _ _].
        assert (wstep w (CUpdate mp OCUp false) ROk (mkWorld (mkHeap (h_indoms (w_heap w)) (<[mp := m']> (h_metrics (w_heap w)))) (w_regs w) (w_clients w) fs' (w_paths w) (w_offs w) false)) as St.
        { exact (ws_update w mp OCUp false m ROk fs' m' Hd Hm Ha Hrun). }
        rewrite <- Hk. eapply kind_step; [apply reachable_ok, R|exact St|exact Hm|cbn; apply lookup_insert|]. intros s t E0. congruence.
      + intros n. destruct n as [i|]; [|by rewrite val_at_single]. unfold val_at, cell_at. rewrite Hi in E2. unfold m_indom in E2. destruct (m_body m'); [reflexivity|discriminate].
  Qed.
  Lemma s_set_inst v x i ip d g : is_m w mp D MInstance (Some ip) g -> h_indoms (w_heap w) !! ip = Some d -> f w = Some (CUpdate mp (OISet v i) mst) -> has_instance d i = true ->
    wf_goval v -> (forall s, v = VStr s -> zlen s <= 256) -> IsCompatible (md_type D) v = true -> resolve (md_type D) v = x -> plain_val x ->
    (forall w1, running w1 loc cluster r gen pid -> h_indoms (w_heap w1) = h_indoms (w_heap w) -> keeps_others w1 -> is_m w1 mp D MInstance (Some ip) (upd1 g i x) -> surely w1 ss Q) ->
    surely w (GCall f :: ss) Q.
  Proof using RU Reg.
    intros (m & Hm & <- & Hk & Hi & Hv) Hd Hf Hin Hw Hs Hc Hx Hp H. destruct (ru_live _ Hm) as [HL Hok].
    assert (exists cells, m_body m = BInst ip cells) as [cells Hb] by (unfold m_indom in Hi; destruct (m_body m); [discriminate|injection Hi as ->; eauto]).
    destruct (set_inst_live _ (w_files w) _ _ _ _ Hok Hb Hd v i HL Hw Hs Hin Hc) as (fs' & m' & E & _).
    destruct (set_inst_ok _ (w_files w) _ _ _ _ Hok Hb Hd _ _ _ _ E) as (_ & _ & (y & Ey & Hh & _) & Ho).
    assert (y = x) as -> by (destruct Hh as [->|Hh]; [exact Hx|apply Hp; by rewrite <- Hx]).
    assert (run_op (w_files w) (w_heap w) m (OISet v i) = Some (ROk, fs', m')) as Hrun by (unfold run_op, with_dom; rewrite Hk, Hb, Hd; cbn; by rewrite E).
    assert (op_args (w_heap w) m (OISet v i)) as Ha by exact Hw. destruct (frame_kind _ _ _ _ mst _ _ _ Hok Ha Hrun) as [E1 E2].
    eapply s_update; [exact RU|exact Hf|exact Hm|exact Ha| |exact Hrun|].
    { cbn. destruct v; auto. }
    intros w1 RU1 Hin1 Hms. apply H; auto.
    - intros mp' D' K' I' g' N M. eapply is_m_other; eauto.
    - exists m'. rewrite Hms, lookup_insert. split_and!; auto; try congruence.
      + destruct RU as [[R Hdd] _ _ _].
        assert (wstep w (CUpdate mp (OISet v i) false) ROk (mkWorld (mkHeap (h_indoms (w_heap w)) (<[mp := m']> (h_metrics (w_heap w)))) (w_regs w) (w_clients w) fs' (w_paths w) (w_offs w) false)) as St.
        { exact (ws_update w mp (OISet v i) false m ROk fs' m' Hdd Hm Ha Hrun). }
        rewrite <- Hk. eapply kind_step; [apply reachable_ok, R|exact St|exact Hm|cbn; apply lookup_insert|]. intros s t E0. congruence.
      + intros n. unfold upd1. case_decide; [by subst|]. rewrite Ho by assumption. apply Hv.
  Qed.
  Lemma read_single g v : is_m w mp D MSingleton None g -> g None = Some v -> read_val w mp = Some v.
  Proof. intros (m & Hm & _ & _ & _ & Hv) Hg. unfold read_val. rewrite Hm. cbn. by rewrite <- val_at_single, Hv. Qed.
  Lemma read_instance i ip d g v : is_m w mp D MInstance (Some ip) g -> h_indoms (w_heap w) !! ip = Some d -> has_instance d i = true -> g (Some i) = Some v -> read_inst w mp i = Some v.
  Proof using RU Reg.
    intros (m & Hm & _ & _ & Hi & Hv) Hd Hin Hg. unfold read_inst. rewrite Hm. cbn. destruct (ru_live _ Hm) as [HL Hok].
    assert (exists cells, m_body m = BInst ip cells) as [cells Hb] by (unfold m_indom in Hi; destruct (m_body m); [discriminate|injection Hi as ->; eauto]).
    rewrite Hb, Hd. cbn. rewrite (val_inst _ _ _ _ _ Hok Hb Hd i), Hin. cbn. by rewrite Hv.
  Qed.
End upd.

(** ** What the file shows *)
(** Values of the instances [l] of domain [d]: what [g] says. *)
Definition inst_vals (vm : vmetric) (v2 : bool) (d : indom) (g : option gostring -> option goval) : list vvalue :=
  omap (fun i => v ← g (Some i.1); Some (mkVV vm (Some (want_inst v2 d i)) (want_val v))) (map_to_list (id_insts d)).
Lemma values_single w mp D K f v v2 m : is_m w mp D K None f -> f None = Some v -> h_metrics (w_heap w) !! mp = Some m ->
  want_metric v2 (m_desc m) (metric_dom (w_heap w) m) = want_metric v2 D None /\ want_values (w_heap w) v2 m = [mkVV (want_metric v2 D None) None (want_val v)].
Proof.
  intros (m' & Hm' & <- & _ & Hi & Hv) Hf Hm. assert (m' = m) as -> by congruence. unfold want_values, metric_dom. specialize (Hv None). rewrite Hf, val_at_single in Hv.
  unfold m_val in Hv. unfold m_indom in Hi. destruct (m_body m) as [c|]; [|discriminate]. injection Hv as ->. auto.
Qed.
Lemma values_inst w mp D K ip d f v2 m : is_m w mp D K (Some ip) f -> h_indoms (w_heap w) !! ip = Some d -> h_metrics (w_heap w) !! mp = Some m ->
  want_metric v2 (m_desc m) (metric_dom (w_heap w) m) = want_metric v2 D (Some d) /\ want_values (w_heap w) v2 m = inst_vals (want_metric v2 D (Some d)) v2 d f.
Proof.
  intros (m' & Hm' & <- & _ & Hi & Hv) Hd Hm. assert (m' = m) as -> by congruence. unfold want_values, metric_dom, inst_vals, m_indom in *.
  destruct (m_body m) as [c|ip' cells] eqn:Hb; [discriminate|]. injection Hi as ->. rewrite Hd. split; [reflexivity|].
  apply list_omap_ext. apply Forall_Forall2_diag, Forall_forall. intros [i id] _. cbn. specialize (Hv (Some i)). unfold val_at, cell_at in Hv. rewrite Hb in Hv.
  rewrite <- Hv. destruct (cells !! i); reflexivity.
Qed.
(** The file at [loc] is complete and shows exactly [V]; its header says who wrote it and how many sections there are. *)
Definition file_shows (w : world) (loc client : gostring) (version sections gen pid : Z) (V : view) : Prop :=
  exists ino buf d, w_paths w !! loc = Some ino /\ f_inodes (w_files w) !! ino = Some buf /\ Dump buf = DOk d /\
    du_header d = mkHeader (padded 4 (str "MMV")) version (gen mod 2 ^ 64) (gen mod 2 ^ 64) sections 2 (to_signed 32 pid) (to_signed 32 (hash client 12)) /\
    shows d V.
Lemma running_shows w loc client r gen pid V : running w loc (hash client PCPClusterIDBitLength) r gen pid -> veq (want_view (w_heap w) r) V ->
  file_shows w loc client (if r_version2 r then 2 else 1) (tocCount r) gen pid V.
Proof.
  intros [[R _] Sy [wr Hc] Hr] HV. destruct (synced_file _ _ _ _ (reachable_ok _ R) Sy) as (c & r' & buf & Hc' & Hr' & _ & Hf & _ & d & E1 & E2 & E3).
  assert (c = mkClient loc (hash client PCPClusterIDBitLength) ProcessFlag 0 (Some wr)) as -> by congruence. cbn [cl_reg] in Hr'. assert (r' = set_mapped r true) as -> by congruence.
  unfold file_of in Hf. cbn [cl_loc] in Hf. destruct (w_paths w !! loc) as [ino|] eqn:Ep; [|discriminate]. cbn in Hf.
  exists ino, buf, d. split_and!; auto; [|eapply shows_veq; [exact HV|exact E3]].
  rewrite E2. unfold want_hdr. rewrite <- (sections_count _ _ (wo_regs _ (reachable_ok _ R) _ _ Hr)). reflexivity.
Qed.

(** Registries with one metric and no domain, and with instance metrics. *)
Lemma single_shows w loc client r gen pid mp D K v name : running w loc (hash client PCPClusterIDBitLength) r gen pid -> is_m w mp D K None (one v) ->
  map_to_list (r_metrics r) = [(name, mp)] -> map_to_list (r_indoms r) = [] ->
  file_shows w loc client (if r_version2 r then 2 else 1) (tocCount r) gen pid
    (mkView [] [] [want_metric (r_version2 r) D None] [mkVV (want_metric (r_version2 r) D None) None (want_val v)]).
Proof.
  intros RU M Em Ei. apply running_shows; [exact RU|]. unfold want_view, reg_indoms, reg_metrics. rewrite Em, Ei. cbn.
  pose proof M as (m & Hm & _). rewrite Hm. cbn. destruct (values_single _ _ _ _ _ v (r_version2 r) _ M eq_refl Hm) as [-> ->]. split_and!; reflexivity.
Qed.
Record inst_metric := mkIM { im_mp : nat; im_desc : mdesc; im_ip : nat; im_dom : indom; im_vals : option gostring -> option goval }.
Lemma inst_shows w loc client r gen pid ims ds : running w loc (hash client PCPClusterIDBitLength) r gen pid ->
  (map_to_list (r_metrics r)).*2 = map im_mp ims -> Forall2 (fun ip d => h_indoms (w_heap w) !! ip = Some d) (map_to_list (r_indoms r)).*2 ds ->
  Forall (fun x => is_m w (im_mp x) (im_desc x) MInstance (Some (im_ip x)) (im_vals x) /\ h_indoms (w_heap w) !! im_ip x = Some (im_dom x)) ims ->
  let v2 := r_version2 r in
  file_shows w loc client (if v2 then 2 else 1) (tocCount r) gen pid
    (mkView (map want_indom ds) (concat (map (fun d => map (want_inst v2 d) (map_to_list (id_insts d))) ds))
      (map (fun x => want_metric v2 (im_desc x) (Some (im_dom x))) ims)
      (concat (map (fun x => inst_vals (want_metric v2 (im_desc x) (Some (im_dom x))) v2 (im_dom x) (im_vals x)) ims))).
Proof.
  intros RU Em Ed HF v2. apply running_shows; [exact RU|]. fold v2. unfold want_view. fold v2.
  assert (reg_indoms (w_heap w) r = ds) as ->.
  { unfold reg_indoms. induction Ed as [|ip d l ds' E Ed IH]; [reflexivity|]. cbn. rewrite E. by rewrite IH. }
  assert (map (fun m => want_metric v2 (m_desc m) (metric_dom (w_heap w) m)) (reg_metrics (w_heap w) r) = map (fun x => want_metric v2 (im_desc x) (Some (im_dom x))) ims /\
    map (want_values (w_heap w) v2) (reg_metrics (w_heap w) r) = map (fun x => inst_vals (want_metric v2 (im_desc x) (Some (im_dom x))) v2 (im_dom x) (im_vals x)) ims) as [-> ->].
  { unfold reg_metrics. rewrite Em. clear Em. induction HF as [|x l [M Hd] HF IH]; [auto|]. cbn. pose proof M as (m & Hm & _). rewrite Hm. cbn.
    destruct (values_inst _ _ _ _ _ _ _ v2 _ M Hd Hm) as [-> ->]. destruct IH as [-> ->]. auto. }
  split_and!; reflexivity.
Qed.
(** The instances of a new domain. *)
Lemma dom_list name insts desc d : new_indom name insts desc = Some d -> NoDup insts -> map_to_list (id_insts d) ≡ₚ map (fun i => (i, inst_id i)) insts.
Proof.
  unfold new_indom. case_bool_decide; [discriminate|]. destruct (2 <? zlen desc); [discriminate|]. destruct (add_instances ∅ insts) as [g|] eqn:E; [|discriminate]. intros [= <-] ND. cbn.
  assert (forall l acc g0, add_instances acc l = Some g0 -> NoDup l -> (forall i, i ∈ l -> acc !! i = None) -> map_to_list g0 ≡ₚ map (fun i => (i, inst_id i)) l ++ map_to_list acc) as G.
  { clear. induction l as [|i l IH]; intros acc g0 E ND HN; cbn in E; [by injection E as <-|]. destruct (_ <? _); [discriminate|]. apply NoDup_cons in ND as [N1 N2].
    rewrite (IH _ _ E N2).
    - rewrite map_to_list_insert by (apply HN; left). cbn. by rewrite Permutation_middle.
    - intros j Hj. rewrite lookup_insert_ne; [apply HN; by right|]. intros ->. by apply N1. }
  rewrite (G _ _ _ E ND); [by rewrite map_to_list_empty, app_nil_r|]. intros i _. apply lookup_empty.
Qed.
Lemma inst_vals_list vm v2 name insts desc d g h : new_indom name insts desc = Some d -> NoDup insts -> (forall i, i ∈ insts -> g (Some i) = Some (h i)) ->
  inst_vals vm v2 d g ≡ₚ map (fun i => mkVV vm (Some (want_inst v2 d (i, inst_id i))) (want_val (h i))) insts.
Proof.
  intros E ND Hg. unfold inst_vals. rewrite (dom_list _ _ _ _ E ND). clear E ND. induction insts as [|i insts IH]; [reflexivity|]. cbn.
  rewrite (Hg i) by left. cbn. constructor. apply IH. intros j Hj. apply Hg. by right.
Qed.
