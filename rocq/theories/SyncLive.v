(** Registered metrics of a synchronised client can be updated. *)
From Verif Require Import Base BaseFacts Floats GoVal MetricType ByteWriter Hash Units Indom Metrics Registry Prog
  Client Mmvdump Ileave ProgProofs Events StartEvents BufFacts Tiling StartGood StartLayout StartFinal StartDone
  View Sections StartView RegInv Update World OpRuns RegFacts WorldInv Sync FloatFacts ValueFacts MetricFacts.

(** The slot of every value of a registered metric. *)
Lemma sync_slot hp fs k wr ino pl ad am buf mp m n c : heap_ok hp -> reg_ok hp (k_reg k) -> sync hp fs k wr ino pl ad am buf ->
  registered (k_reg k) mp -> h_metrics hp !! mp = Some m -> cell_at m n = Some c ->
  exists off, c_upd c = Some (mkClosure wr off) /\ 0 <= off /\ off + slot_w (md_type (m_desc m)) <= zlen buf /\
    EUpd (mp, n) off ∈ ev_start k pl ad am.
Proof.
  intros Hh Hr S Hreg Hm Hc.
  destruct (plan_find _ _ _ _ (sy_plan _ _ _ _ _ _ _ _ _ S) Hreg) as (m1 & p & m2 & Hsp & Hpp).
  pose proof (plan_row _ _ _ _ _ _ (ho_metrics _ Hh _ _ Hm) Hm Hpp Hc) as Hrow.
  assert (p ∈ pl_mets pl) as Hin. { rewrite Hsp. apply elem_of_app. right. left. }
  pose proof (plan_keys_NoDup _ _ _ _ Hh Hr (sy_plan _ _ _ _ _ _ _ _ _ S) Hin) as HN.
  pose proof (mplan_p_mp _ _ _ Hpp) as Emp. destruct (mplan_mp _ _ _ _ Hm Hpp) as (Hd & _).
  pose proof (sy_start _ _ _ _ _ _ _ _ _ S) as St. pose proof (st_mets _ _ St) as Sm. rewrite Forall_forall in Sm.
  destruct (Sm m) as (_ & _ & Sf). { apply reg_metrics_in. eauto. }
  assert (val_fits (c_val c)) as Hfc by (eapply metric_body_fits; eauto).
  assert (vtyped (md_type (m_desc m)) (c_val c)) as Hty by (eapply cell_typed; [apply (ho_metrics _ Hh _ _ Hm)|exact Hc]).
  destruct (image_update k pl ad am buf m1 p m2 n (c_val c) (c_val c) (sy_image _ _ _ _ _ _ _ _ _ S) Hsp HN Hrow) as (off & U1 & U2 & U3 & _); auto; try (rewrite Hd; exact Hty).
  rewrite Emp in U1. rewrite Hd in U3. exists off.
  destruct (sy_upds _ _ _ _ _ _ _ _ _ S _ _ _ U1) as (m0 & c0 & H1 & H2 & H3). assert (m0 = m) as -> by congruence.
  assert (c0 = c) as -> by congruence. auto.
Qed.

Lemma sync_live hp fs k wr ino pl ad am buf mp m : heap_ok hp -> reg_ok hp (k_reg k) -> sync hp fs k wr ino pl ad am buf ->
  registered (k_reg k) mp -> h_metrics hp !! mp = Some m -> live fs m.
Proof.
  intros Hh Hr S Hreg Hm n c Hc cl Hcl. destruct (sync_slot _ _ _ _ _ _ _ _ _ _ _ _ _ Hh Hr S Hreg Hm Hc) as (off & E & B1 & B2 & _).
  assert (cl = mkClosure wr off) as -> by congruence. exists (mkWriter ino true), buf. cbn. split_and!; auto; [apply (sy_writer _ _ _ _ _ _ _ _ _ S)|apply (sy_buf _ _ _ _ _ _ _ _ _ S)].
Qed.

Lemma synced_live w cid gen pid c r mp m : w_ok w -> synced w cid gen pid -> w_clients w !! cid = Some c -> w_regs w !! cl_reg c = Some r ->
  registered r mp -> h_metrics (w_heap w) !! mp = Some m -> live (w_files w) m.
Proof.
  intros W (c' & r' & wr & ino & pl & ad & am & buf & Hc & Hr & _ & _ & _ & S) Hc' Hr' Hreg Hm. assert (c' = c) as -> by congruence. assert (r' = r) as -> by congruence.
  eapply (sync_live _ _ (start_cfg c r gen pid)); eauto; [apply W|]. eapply wo_regs; eauto.
Qed.
Lemma unmapped_live fs m : no_closures m -> live fs m.
Proof. intros H n c Hc cl Hcl. rewrite (H _ _ Hc) in Hcl. discriminate. Qed.
