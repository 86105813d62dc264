(** Start never panics, never blocks for good and always finishes (C02). *)
From Verif Require Import Base BaseFacts Floats GoVal MetricType ByteWriter Hash Units Indom Metrics Registry Prog
  Client Mmvdump Ileave ProgProofs Events StartEvents BufFacts Tiling StartGood StartLayout StartFinal StartDone
  View Sections StartView RegInv Update World OpRuns RegFacts WorldInv Sync.

Lemma act_panic s l s' : act s l = Some s' -> g_panic s = true -> g_panic s' = true.
Proof. unfold act. intros H E. repeat case_match; simplify_eq; auto. Qed.
Lemma rsteps_panic L x y : rtc (rstep L) x y -> g_panic x.1 = true -> g_panic y.1 = true.
Proof. induction 1 as [|x y z (l & _ & Ha) _ IH]; auto. intros E. apply IH. eapply act_panic; eauto. Qed.
Lemma rsteps_gsteps L x y : rtc (rstep L) x y -> g_panic y.1 = false -> rtc (gstep L) x y.
Proof.
  induction 1 as [|x y z S R IH]; intros E; [reflexivity|]. eapply rtc_l; [|auto]. split; [|exact S].
  destruct (g_panic x.1) eqn:Ex; [|reflexivity]. rewrite (rsteps_panic L x z) in E; [discriminate| |exact Ex]. eapply rtc_l; eauto.
Qed.
Lemma gsteps_rsteps L x y : rtc (gstep L) x y -> rtc (rstep L) x y.
Proof. intros H. eapply rtc_subrel; [|exact H]. intros ? ?. apply gstep_rstep. Qed.

(** Steps preserve finiteness of the work left. *)
Lemma cost_rsteps L x y : rtc (rstep L) x y -> spn x.2 0 -> (exists n, cost x.2 n) -> exists n, cost y.2 n.
Proof.
  induction 1 as [|x y z (l & Hp & Ha) R IH]; intros Hs [n Hc]; [eauto|]. apply IH; [eapply spn_pstep; eauto|].
  destruct (cost_pstep L _ _ _ Hp 0%nat Hs n Hc) as (n' & Hc' & _). eauto.
Qed.

Section live.
  Context (hp : heap) (k : cfg) (pl : plan) (offs : gmap okey Z).
  Context (Hh : heap_ok hp) (Hr : reg_ok hp (k_reg k)) (Hp : plan_ok hp (k_reg k) pl) (Hs : startable hp (k_reg k)).
  Let L := Length (k_reg k).
  Let st0 := (start_state (k_reg k) offs ∅, start_prog k pl).

  Lemma start_wf : plan_wf (k_reg k) pl.
  Proof using Hh Hr Hp Hs. eapply plan_wf_ok; eauto. Qed.
  Lemma start_good0 : good (av (k_reg k)) st0.1 st0.2.
  Proof using Hh Hr Hp Hs. apply good_start. apply (pw_fit _ _ start_wf). Qed.

  (** Any state reached can be run to completion. *)
  Lemma start_can_finish x : rtc (rstep L) st0 x -> exists s, rtc (rstep L) x (s, PRet).
  Proof using Hh Hr Hp Hs.
    intros R. pose proof (good_steps _ _ _ _ R start_good0) as G. destruct (cost_rsteps _ _ _ R) as [n Hn]; [apply start_good0|apply cost_start|].
    destruct x as [s p]. eapply good_complete; eauto.
  Qed.
  Lemma start_safe x : rtc (rstep L) st0 x -> g_panic x.1 = false.
  Proof using Hh Hr Hp Hs.
    intros R. destruct (start_can_finish x R) as [s R']. destruct (start_done k pl offs ∅ s start_wf) as (ad & am & HR); [etransitivity; eauto|].
    destruct (g_panic x.1) eqn:E; [|reflexivity]. pose proof (rsteps_panic _ _ _ R' E) as E'. cbn in E'. rewrite (sr_panic _ _ _ _ _ _ HR) in E'. discriminate.
  Qed.
  Lemma start_progress x : rtc (gstep L) st0 x -> x.2 = PRet \/ exists y, gstep L x y.
  Proof using Hh Hr Hp Hs.
    intros R. apply gsteps_rsteps in R. pose proof (good_steps _ _ _ _ R start_good0) as G. pose proof (start_safe _ R) as Hn.
    assert (x.2 = PRet \/ x.2 <> PRet) as [E|N] by (destruct x.2; (left; reflexivity) || (right; discriminate)); [auto|]. right.
    destruct x as [s p]. destruct (good_progress _ L _ _ G N) as [y Hy]. exists y. split; auto.
  Qed.
  Lemma start_bounded : exists n, forall i y, nsteps (gstep L) i st0 y -> (i <= n)%nat.
  Proof using Hh Hr Hp Hs.
    destruct (cost_start k pl) as [n Hn]. exists n. intros i y H. eapply (cost_bound L (start_prog k pl) n st0); [apply start_good0|exact Hn|reflexivity|].
    assert (forall i x y, nsteps (gstep L) i x y -> nsteps (rstep L) i x y) as G; [|by apply G].
    clear. induction 1; econstructor; eauto using gstep_rstep.
  Qed.
  Lemma start_exists : exists s, rtc (gstep L) st0 (s, PRet) /\ g_panic s = false.
  Proof using Hh Hr Hp Hs.
    destruct (start_can_finish st0) as [s R]; [reflexivity|]. exists s. pose proof (start_safe _ R) as E. split; [|exact E]. by apply rsteps_gsteps.
  Qed.
End live.

(** One way to enumerate the maps of a registry. *)
Definition std_dom (hp : heap) (ip : nat) : nat * indom * list (gostring * Z) :=
  let d := default (mkIndom 0 [] ∅ [] []) (h_indoms hp !! ip) in (ip, d, map_to_list (id_insts d)).
Definition std_met (hp : heap) (mp : nat) : mplan :=
  match h_metrics hp !! mp with
  | Some m =>
      match m_body m with
      | BSingle c => MPSingle mp (m_desc m) (c_val c)
      | BInst ip cells => MPInst mp (m_desc m) ip (default (mkIndom 0 [] ∅ [] []) (h_indoms hp !! ip)) (map_to_list (c_val <$> cells))
      end
  | None => MPSingle mp (mkDesc 0 [] 0 0 0 [] []) (VInt 0)
  end.
Definition std_plan (hp : heap) (r : registry) : plan :=
  mkPlan (std_dom hp <$> (map_to_list (r_indoms r)).*2) (std_met hp <$> (map_to_list (r_metrics r)).*2).

Lemma std_plan_ok hp r : heap_ok hp -> reg_ok hp r -> plan_ok hp r (std_plan hp r).
Proof.
  intros Hh Hr. split; eexists; (split; [reflexivity|]).
  - split.
    + cbn. rewrite <- list_fmap_compose. rewrite <- (list_fmap_id (map_to_list (r_indoms r)).*2) at 2. by apply list_fmap_ext.
    + apply Forall_fmap, Forall_forall. intros ip H. apply elem_of_list_fmap in H as ([n ip'] & -> & H). apply elem_of_map_to_list in H.
      destruct (ro_indoms _ _ Hr _ _ H) as (d & Hd & _). unfold compose, std_dom. cbn. rewrite Hd. split; [exact Hd|reflexivity].
  - apply Forall2_fmap_r. apply Forall_Forall2_diag, Forall_forall. intros mp H. apply elem_of_list_fmap in H as ([n mp'] & -> & H). apply elem_of_map_to_list in H. cbn.
    destruct (ro_metrics _ _ Hr _ _ H) as (m & Hm & _). exists m. split; [exact Hm|]. unfold std_met. rewrite Hm.
    pose proof (mo_body _ _ (ho_metrics _ Hh _ _ Hm)) as HB. destruct (m_body m) as [c|ip cells] eqn:Eb; [eauto 10|].
    destruct HB as (d & Hd & HD & _). rewrite Hd. cbn. split_and!; auto. exists cells. split_and!; auto.
    + apply NoDup_Permutation; [apply NoDup_fst_map_to_list..|]. intros i. rewrite !elem_of_list_fmap. split.
      * intros ([j v] & -> & K). apply elem_of_map_to_list in K. cbn. rewrite lookup_fmap in K. destruct (cells !! j) as [c|] eqn:Ej; [|discriminate].
        assert (j ∈ dom (id_insts d)) as K2 by (rewrite <- HD; apply elem_of_dom; eauto). apply elem_of_dom in K2 as [z Hz]. exists (j, z). split; [reflexivity|]. by apply elem_of_map_to_list.
      * intros ([j v] & -> & K). apply elem_of_map_to_list in K. cbn. assert (j ∈ dom cells) as K2 by (rewrite HD; apply elem_of_dom; eauto).
        apply elem_of_dom in K2 as [c Hc]. exists (j, c_val c). split; [reflexivity|]. apply elem_of_map_to_list. by rewrite lookup_fmap, Hc.
    + apply Forall_forall. intros [j v] K. apply elem_of_map_to_list in K. rewrite lookup_fmap in K. destruct (cells !! j) as [c|] eqn:Ej; [|discriminate]. injection K as <-. cbn. eauto.
Qed.
Lemma plan_exists hp r : heap_ok hp -> reg_ok hp r -> exists pl, plan_ok hp r pl.
Proof. intros Hh Hr. exists (std_plan hp r). by apply std_plan_ok. Qed.

(** Start on a startable registry can be performed. *)
Lemma start_possible w cid c r gen pid wr ino : w_ok w -> w_dead w = false -> w_clients w !! cid = Some c -> w_regs w !! cl_reg c = Some r -> startable (w_heap w) r ->
  f_writers (w_files w) !! wr = None -> f_inodes (w_files w) !! ino = None ->
  exists s, wstep w (CStart cid gen pid true) ROk (started w cid c r wr ino s) /\ synced (started w cid c r wr ino s) cid gen pid.
Proof.
  intros W Hd Hc Hr Hs Hw Hi. destruct (plan_exists _ _ (wo_heap _ W) (wo_regs _ W _ _ Hr)) as [pl Hp].
  destruct (start_exists (w_heap w) (start_cfg c r gen pid) pl (w_offs w) (wo_heap _ W) (wo_regs _ W _ _ Hr) Hp Hs) as (s & R & E).
  assert (start_run (w_heap w) (w_offs w) (start_cfg c r gen pid) s) as SR by (exists pl; auto).
  exists s. split; [by econstructor|]. eapply start_synced; eauto.
Qed.
Lemma start_not_panics w cid c r gen pid s : w_ok w -> w_clients w !! cid = Some c -> w_regs w !! cl_reg c = Some r -> startable (w_heap w) r ->
  ~ start_panics (w_heap w) (w_offs w) (start_cfg c r gen pid) s.
Proof.
  intros W Hc Hr Hs (pl & p & Hp & R & E). pose proof (start_safe (w_heap w) (start_cfg c r gen pid) pl (w_offs w) (wo_heap _ W) (wo_regs _ W _ _ Hr) Hp Hs (s, p) (gsteps_rsteps _ _ _ R)) as E'.
  cbn in E'. congruence.
Qed.
