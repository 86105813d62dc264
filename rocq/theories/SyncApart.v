(** In the file of a started client no byte belongs to the values of two metrics. *)
From Verif Require Import Base BaseFacts Floats GoVal MetricType ByteWriter Hash Units Indom Metrics Registry Prog
  Client Mmvdump Ileave ProgProofs Events StartEvents BufFacts Tiling StartGood StartLayout StartFinal StartDone
  View Sections StartView RegInv Update World OpRuns RegFacts WorldInv Sync FloatFacts ValueFacts MetricFacts SyncLive.

Lemma zip_with_cat {A B C} (f : A -> B -> list C) l1 l2 l : length (l1 ++ l2) = length l ->
  exists k1 k2, l = k1 ++ k2 /\ length l1 = length k1 /\ length l2 = length k2 /\ concat (zip_with f (l1 ++ l2) l) = concat (zip_with f l1 k1) ++ concat (zip_with f l2 k2).
Proof.
  revert l. induction l1 as [|x l1 IH]; intros l HL; [by exists [], l|]. destruct l as [|y l]; [done|]. cbn in HL. destruct (IH l) as (k1 & k2 & -> & E1 & E2 & E3); [lia|].
  exists (y :: k1), k2. cbn. rewrite E3, app_assoc. split_and!; auto; lia.
Qed.

Lemma start_split2 c pl ad am m1 p m2 p' m3 n v n' v' :
  pl_mets pl = m1 ++ p :: m2 ++ p' :: m3 -> length (pl_mets pl) = length am -> NoDup (met_keys p) -> NoDup (met_keys p') ->
  (n, v) ∈ mp_vals p -> (n', v') ∈ mp_vals p' ->
  exists F1 F2 F3 off off', EUpd (p_mp p, n) off ∈ ev_start c pl ad am /\ EUpd (p_mp p', n') off' ∈ ev_start c pl ad am /\
    ev_start c pl ad am = F1 ++ v_ev (md_type (mp_desc p)) off v :: F2 ++ v_ev (md_type (mp_desc p')) off' v' :: F3.
Proof.
  intros Hm HL HN HN' Hin Hin'. set (f := ev_met (r_version2 (k_reg c))).
  assert (exists X, ev_start c pl ad am = X ++ concat (zip_with f (pl_mets pl) am)) as [X EX].
  { eexists (EJob None 16 8 [le_enc 8 0; le_enc 8 (k_gen c)] :: ev_header c ++ ev_tocs HeaderLength (toc_entries (k_reg c))
    ++ concat (zip_with (ev_dom (k_reg c)) (pl_doms pl) ad)). unfold ev_start. rewrite <- app_comm_cons, <- !app_assoc. reflexivity. }
  rewrite EX. clear EX. rewrite Hm in *. destruct (zip_with_cat f m1 _ am HL) as (k1 & k2 & -> & _ & L2 & ->). destruct k2 as [|a k2]; [done|].
  cbn [length zip_with concat] in *. destruct (zip_with_cat f m2 (p' :: m3) k2) as (k3 & k4 & -> & _ & L4 & ->); [lia|]. destruct k4 as [|a' k4]; [done|]. cbn [zip_with concat].
  destruct (met_split (r_version2 (k_reg c)) p a n v HN Hin) as (F1 & F2 & off & Hu & HF & _).
  destruct (met_split (r_version2 (k_reg c)) p' a' n' v' HN' Hin') as (F1' & F2' & off' & Hu' & HF' & _). fold f in HF, HF'. rewrite HF, HF'.
  rewrite row_key_mp in Hu, Hu'.
  exists (X ++ concat (zip_with f m1 k1) ++ F1), (F2 ++ concat (zip_with f m2 k3) ++ F1'), (F2' ++ concat (zip_with f m3 k4)), off, off'.
  split_and!.
  - repeat (rewrite elem_of_app || rewrite elem_of_cons). tauto.
  - repeat (rewrite elem_of_app || rewrite elem_of_cons). tauto.
  - rewrite <- !app_assoc. cbn [app]. do 4 f_equal.
Qed.

Lemma split2_disj F1 F2 F3 t off v t' off' v' L : (exists R, R ≡ₚ map job_reg (jobs (F1 ++ v_ev t off v :: F2 ++ v_ev t' off' v' :: F3)) /\ chained 0 R L) ->
  off + slot_w t <= off' \/ off' + slot_w t' <= off.
Proof.
  intros (R & HR & HC). apply chained_pairwise in HC. apply (pairwise_perm _ _ _ disj_sym HR) in HC. rewrite jobs_app, map_app in HC. apply pairwise_app in HC as (_ & HC & _).
  unfold v_ev in HC. change (jobs (EJob ?t ?lo ?w ?ds :: ?E2)) with ((t, lo, w, ds) :: jobs E2) in HC. cbn [map pairwise] in HC. destruct HC as [HC _].
  rewrite jobs_app, map_app, Forall_app in HC. destruct HC as [_ HC]. change (jobs (EJob ?t ?lo ?w ?ds :: ?E2)) with ((t, lo, w, ds) :: jobs E2) in HC.
  cbn [map] in HC. apply Forall_cons_1 in HC as [HC _]. unfold disj, job_reg in HC. cbn in HC. exact HC.
Qed.

Lemma sync_disj hp fs k wr ino pl ad am buf mp m n c mp' m' n' c' cl cl' : heap_ok hp -> reg_ok hp (k_reg k) -> sync hp fs k wr ino pl ad am buf ->
  registered (k_reg k) mp -> h_metrics hp !! mp = Some m -> cell_at m n = Some c -> c_upd c = Some cl ->
  registered (k_reg k) mp' -> h_metrics hp !! mp' = Some m' -> cell_at m' n' = Some c' -> c_upd c' = Some cl' -> mp <> mp' ->
  cl_off cl + slot_w (md_type (m_desc m)) <= cl_off cl' \/ cl_off cl' + slot_w (md_type (m_desc m')) <= cl_off cl.
Proof.
  intros Hh Hr S Hreg Hm Hc Hu Hreg' Hm' Hc' Hu' N.
  destruct (plan_find _ _ _ _ (sy_plan _ _ _ _ _ _ _ _ _ S) Hreg) as (m1 & p & m2 & Hsp & Hpp).
  destruct (plan_find _ _ _ _ (sy_plan _ _ _ _ _ _ _ _ _ S) Hreg') as (m1' & p' & m2' & Hsp' & Hpp').
  pose proof (plan_row _ _ _ _ _ _ (ho_metrics _ Hh _ _ Hm) Hm Hpp Hc) as Hrow. pose proof (plan_row _ _ _ _ _ _ (ho_metrics _ Hh _ _ Hm') Hm' Hpp' Hc') as Hrow'.
  pose proof (mplan_p_mp _ _ _ Hpp) as Emp. pose proof (mplan_p_mp _ _ _ Hpp') as Emp'.
  destruct (mplan_mp _ _ _ _ Hm Hpp) as (Hd & _). destruct (mplan_mp _ _ _ _ Hm' Hpp') as (Hd' & _).
  pose proof (plan_keys_NoDup _ _ _ p Hh Hr (sy_plan _ _ _ _ _ _ _ _ _ S)) as HN. pose proof (plan_keys_NoDup _ _ _ p' Hh Hr (sy_plan _ _ _ _ _ _ _ _ _ S)) as HN'.
  specialize (HN ltac:(rewrite Hsp; apply elem_of_app; right; left)). specialize (HN' ltac:(rewrite Hsp'; apply elem_of_app; right; left)).
  pose proof (Forall2_length _ _ _ (im_mas _ _ _ _ _ (sy_image _ _ _ _ _ _ _ _ _ S))) as HL.
  pose proof (im_tiles _ _ _ _ _ (sy_image _ _ _ _ _ _ _ _ _ S)) as HT.
  assert (forall mp n m c cl off, h_metrics hp !! mp = Some m -> cell_at m n = Some c -> c_upd c = Some cl -> EUpd (mp, n) off ∈ ev_start k pl ad am -> cl_off cl = off) as U.
  { intros mp0 n0 m0 c0 cl0 off H1 H2 H3 H4. destruct (sy_upds _ _ _ _ _ _ _ _ _ S _ _ _ H4) as (m3 & c3 & K1 & K2 & K3). assert (m3 = m0) as -> by congruence. assert (c3 = c0) as -> by congruence.
    rewrite H3 in K3. by injection K3 as ->. }
  rewrite Hsp in Hsp'. assert (p' <> p) as Np by (intros ->; congruence).
  assert (p' ∈ m1 \/ p' ∈ m2) as Hp'.
  { assert (p' ∈ m1 ++ p :: m2) as H by (rewrite Hsp'; apply elem_of_app; right; left). apply elem_of_app in H as [H|H]; [auto|]. apply elem_of_cons in H as [H|H]; [done|auto]. }
  destruct Hp' as [H|H]; apply elem_of_list_split in H as (x & y & ->).
  - rewrite <- app_assoc, <- app_comm_cons in Hsp. destruct (start_split2 k pl ad am x p' y p m2 n' (c_val c') n (c_val c)) as (F1 & F2 & F3 & off & off' & U1 & U2 & E); auto.
    rewrite E in HT. apply split2_disj in HT. rewrite Emp' in U1. rewrite Emp in U2. rewrite Hd, Hd' in HT. rewrite (U _ _ _ _ _ _ Hm Hc Hu U2), (U _ _ _ _ _ _ Hm' Hc' Hu' U1). lia.
  - destruct (start_split2 k pl ad am m1 p x p' y n (c_val c) n' (c_val c')) as (F1 & F2 & F3 & off & off' & U1 & U2 & E); auto.
    rewrite E in HT. apply split2_disj in HT. rewrite Emp in U1. rewrite Emp' in U2. rewrite Hd, Hd' in HT. rewrite (U _ _ _ _ _ _ Hm Hc Hu U1), (U _ _ _ _ _ _ Hm' Hc' Hu' U2). lia.
Qed.
