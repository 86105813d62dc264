(** What the file shows at any moment of concurrent updates. *)
From Verif Require Import Base BaseFacts Floats GoVal MetricType ByteWriter Hash Units Indom Metrics Registry Prog
  Client Mmvdump Ileave ProgProofs Events StartEvents BufFacts Tiling StartGood StartLayout StartFinal StartDone
  View Sections StartView RegInv Update World OpRuns RegFacts WorldInv Sync SyncView FloatFacts ValueFacts MetricFacts SyncLive Locks Conc ConcRuns ConcFacts MidSlot MidUpdate MidStep MidRun.
From stdpp Require Import relations.
Local Open Scope Z_scope.

(** ** Specification *)
(** [u] is shown for a value that is being overwritten, from [old] to [new]: the first [j]
    bytes are already the new ones. A string is first overwritten with zeros
    (/repo/metrics.go:543-552). *)
Inductive half_written : goval -> goval -> goval -> Prop :=
| hw_num j d d0 old new u : ~ is_str old -> ~ is_str new -> ~ is_str u -> val_bytes old = Some d0 -> val_bytes new = Some d -> length d = length d0 ->
    val_bytes u = Some (take j d ++ drop j d0) -> half_written old new u
| hw_clear j s0 s1 : half_written (VStr s0) (VStr s1) (VStr (take j (zeros 256) ++ drop j (padded 256 s0)))
| hw_fill j s0 s1 : half_written (VStr s0) (VStr s1) (VStr (take j s1 ++ drop j (zeros 256)))
| hw_done old new : half_written old new new.
(** Goroutine [i] is inside a changing method of metric [mp], with [p] left to do. *)
Definition updating (m : machine) (i mp : nat) (p : mprog) : Prop :=
  exists d op mst l, mc_thr m !! i = Some (mkThr d (Some (MUpdate mp op mst, p)) l).
(** Run on alone it stores [v] as the value [n]. *)
Definition will_store (mp : nat) (p : mprog) (s : mem) (n : option gostring) (v : goval) : Prop :=
  exists p' s' m', qsteps mp (p, s) (p', s') /\ q_metrics s' !! mp = Some m' /\ val_at m' n = Some v.
(** [g]: metric [mp] as the file shows it, [mm]: as it is in memory. *)
Definition shown_as (m : machine) (mp : nat) (mm g : metric) : Prop :=
  g = mm \/ exists i p n c new u, updating m i mp p /\ cell_at mm n = Some c /\ will_store mp p (mc_mem m) n new /\
    half_written (c_val c) new u /\ vtyped (md_type (m_desc mm)) u /\ g = put_cell mm n (mkCell u (c_upd c)).

(** ** Proofs *)
Lemma write_on mp wr ino kok kerr d : forall s buf off, f_writers (q_files s) !! wr = Some (mkWriter ino true) -> f_inodes (q_files s) !! ino = Some buf -> 0 <= off -> off + zlen d <= zlen buf ->
  exists s' buf', qsteps mp (QWrite wr off d kok kerr, s) (kok, s') /\ q_metrics s' = q_metrics s /\ f_writers (q_files s') = f_writers (q_files s) /\ f_inodes (q_files s') !! ino = Some buf' /\ zlen buf' = zlen buf.
Proof.
  induction d as [|b d IH]; intros s buf off Hw Hb H0 HL.
  - exists s, buf. split_and!; auto. apply rtc_once. unfold qstep. cbn [qnext fst snd]. rewrite Hw. cbn [mbind option_bind wr_live wr_inode]. rewrite Hb. cbn [mbind option_bind].
    by replace (zlen buf <? off + zlen []) with false by lia.
  - set (s1 := mkMem (q_metrics s) (with_inode (q_files s) ino (do_store buf (off, b)))). pose proof (do_store_length buf (off, b)) as LS.
    destruct (IH s1 (do_store buf (off, b)) (off + 1)) as (s' & buf' & Q & E1 & E2 & E3 & E4).
    { exact Hw. } { cbn. apply lookup_insert. } { lia. } { rewrite LS. unfold zlen in *. cbn [length] in HL. lia. }
    exists s', buf'. split_and!; auto; [|lia]. eapply rtc_l; [|exact Q]. unfold qstep. cbn [qnext fst snd]. rewrite Hw. cbn [mbind option_bind wr_live wr_inode]. rewrite Hb. cbn [mbind option_bind].
    replace (zlen buf <? off + zlen (b :: d)) with false by lia. by replace (off <? 0) with false by lia.
Qed.
Lemma set_on mp s m n c v kk : q_metrics s !! mp = Some m -> cell_at m n = Some c -> will_store mp (QSetVal n v kk) s n v.
Proof.
  intros Hm Hc. exists kk, (upd_metric s mp (put_cell m n (mkCell v (c_upd c)))), (put_cell m n (mkCell v (c_upd c))). split_and!.
  - apply rtc_once. unfold qstep. cbn [qnext fst snd]. rewrite Hm. cbn. by rewrite Hc.
  - cbn. apply lookup_insert.
  - unfold val_at. rewrite (cell_at_put _ _ _ _ _ Hc). by rewrite decide_True.
Qed.
Lemma will_trans mp p s p1 s1 n v : qsteps mp (p, s) (p1, s1) -> will_store mp p1 s1 n v -> will_store mp p s n v.
Proof. intros Q (p' & s' & m' & Q' & H). exists p', s', m'. split; [|done]. by eapply rtc_transitive. Qed.

Lemma busy_shown w mps k wr ino ad am m G pl buf i d op mst p l mp m0 mm g : shape w mps k wr ino ad am m G pl buf ->
  mc_thr m !! i = Some (mkThr d (Some (MUpdate mp op mst, p)) l) -> h_metrics (w_heap w) !! mp = Some m0 -> q_metrics (mc_mem m) !! mp = Some mm -> G !! mp = Some g ->
  busy m0 wr p mm g -> shown_as m mp mm g.
Proof.
  intros SH Hi Hm0 Hmm Hg (n & v & kk & c & off & u & Hc & Hu & Eg & Htu & Hfu & Htv & Hfv & Hk & Hph). right.
  pose proof SH as [A1 A2 A3 A4 A5 A6 AD A7 A8 A9]. destruct (A8 _ _ _ _ _ Hi) as (Hin & _). destruct (A5 _ _ _ Hin Hmm Hm0) as (D & T & R).
  destruct R as [R|R]; [|rewrite (R _ _ Hc) in Hu; done].
  assert (cell_at g n = Some (mkCell u (c_upd c))) as Hcg by (rewrite Eg, (cell_at_put _ _ _ _ _ Hc), decide_True by done; done).
  destruct (sync_poke _ _ _ _ _ _ _ _ _ _ _ _ _ A1 A2 A3 R Hg Hcg) as (off' & E & B1 & B2 & _). cbn [c_upd] in E. assert (off' = off) as -> by congruence. clear E.
  assert (md_type (m_desc g) = md_type (m_desc m0)) as Et by (rewrite Eg, put_cell_desc, D; done). rewrite Et in B2.
  pose proof (sy_writer _ _ _ _ _ _ _ _ _ A3) as Sw. pose proof (sy_buf _ _ _ _ _ _ _ _ _ A3) as Sb.
  assert (forall dd, val_bytes v = Some dd -> zlen dd <= slot_w (md_type (m_desc m0))) as Ld.
  { intros dd Hd. pose proof (slot_bytes_len _ v Htv Hfv) as L. rewrite (slot_bytes_eq _ _ _ Htv Hfv Hd), zlen_app in L. pose proof (zlen_nonneg (zeros (slot_w (md_type (m_desc m0)) - zlen dd))). lia. }
  exists i, p, n, c, v, u. split; [by exists d, op, mst, l|]. split; [done|]. rewrite D. cut (will_store mp p (mc_mem m) n v /\ half_written (c_val c) v u); [intros []; auto|].
  destruct Hph as [j dd d0 u Nv Hd Hd0 HL Hj Hud Nu|j s1 s0 -> E0 Hj|j s1 -> Hj|].
  - split.
    + destruct (write_on mp wr ino (QSetVal n v kk) (QRet RErr None) (drop j dd) (mc_mem m) buf (off + Z.of_nat j) Sw Sb) as (s' & buf' & Q & E1 & _); [lia|specialize (Ld _ Hd); unfold zlen in *; rewrite drop_length; lia|].
      eapply will_trans; [exact Q|]. eapply set_on; [by rewrite E1|done].
    + apply (hw_num j dd d0); auto. intros H. apply Nv. eapply same_type_str; [|exact Htv|exact H]. rewrite <- D. eapply cell_typed; eauto.
  - cbn [vtyped] in Htv. rewrite Htv in B2. change (slot_w StringType) with 256 in B2. split; [|rewrite E0; apply hw_clear].
    destruct (write_on mp wr ino (QWrite wr off s1 (QSetVal n (VStr s1) kk) (QRet RErr None)) (QRet RPanic None) (drop j (zeros 256)) (mc_mem m) buf (off + Z.of_nat j) Sw Sb) as (s' & buf' & Q & E1 & E2 & E3 & E4); [lia|unfold zlen in *; rewrite drop_length, len_zeros256; lia|].
    eapply will_trans; [exact Q|]. destruct (write_on mp wr ino (QSetVal n (VStr s1) kk) (QRet RErr None) s1 s' buf' off) as (s2 & buf2 & Q2 & E5 & _); [by rewrite E2|done|lia|cbn in Hfv; lia|].
    eapply will_trans; [exact Q2|]. eapply set_on; [by rewrite E5, E1|done].
  - split.
    + specialize (Ld _ eq_refl). destruct (write_on mp wr ino (QSetVal n (VStr s1) kk) (QRet RErr None) (drop j s1) (mc_mem m) buf (off + Z.of_nat j) Sw Sb) as (s' & buf' & Q & E1 & _); [lia|unfold zlen in *; rewrite drop_length; lia|].
      eapply will_trans; [exact Q|]. eapply set_on; [by rewrite E1|done].
    + assert (is_str (c_val c)) as Es. { eapply same_type_str; [exact Htv| |exact I]. rewrite <- D. eapply cell_typed; eauto. } destruct (c_val c); try done. apply hw_fill.
  - split; [by eapply set_on|apply hw_done].
Qed.

Lemma sync_complete hp fs c r gen pid wr ino pl ad am buf : heap_ok hp -> reg_ok hp r -> sync hp fs (start_cfg c r gen pid) wr ino pl ad am buf ->
  zlen buf = Length r /\ complete_file hp c r gen pid buf.
Proof.
  intros Hh Hro [S1 S2 S3 S4 S5 S6 S7]. cbn in S1, S2.
  pose proof (plan_wf_ok _ _ _ Hh Hro S2 S1) as WF. pose proof (plan_ranges_ok _ _ _ Hh Hro S2 S1) as RG. split; [apply (im_len _ _ _ _ _ S3)|].
  eexists. split; [eapply (dump_ok (start_cfg c r gen pid)); eauto|]. split; [unfold want_hdr; rewrite <- (sections_count _ _ Hro); reflexivity|].
  eapply shows_veq; [eapply (plan_view_want _ _ _ Hro S2 S1 (start_cfg c r gen pid)); reflexivity|]. eapply view_ok; eauto.
Qed.

Theorem mid_file w cid gen pid c r mps css m : w_ok w -> synced w cid gen pid -> w_clients w !! cid = Some c -> w_regs w !! cl_reg c = Some r ->
  (forall mp m, mp ∈ mps -> h_metrics (w_heap w) !! mp = Some m -> registered r mp \/ no_closures m) -> (forall l c, l ∈ css -> c ∈ l -> call_ok w mps c) ->
  rtc (cstep (w_heap w)) (m_start (world_mem w) css) m ->
  exists buf G, file_of (mem_world w (mc_mem m)) c = Some buf /\ zlen buf = Length r /\ complete_file (mkHeap (h_indoms (w_heap w)) G) c r gen pid buf /\
    forall mp, match q_metrics (mc_mem m) !! mp, G !! mp with Some mm, Some g => shown_as m mp mm g | None, None => True | _, _ => False end.
Proof.
  intros W (c' & r' & wr & ino & pl & ad & am & buf & Hc & Hr & Hmap & Hwr & Hpath & S) Hc' Hr' Hreg Hcs Hst. assert (c' = c) as -> by congruence. assert (r' = r) as -> by congruence.
  pose proof (wo_regs _ W _ _ Hr) as Hro.
  pose proof (shape_start w mps (start_cfg c r gen pid) wr ino ad am pl buf css W Hro S Hreg Hcs) as SH.
  destruct (shape_steps _ _ _ _ _ _ _ _ _ _ _ _ Hst SH) as (G & pl' & buf' & SH'). pose proof SH' as [A1 A2 A3 A4 A5 A6 AD A7 A8 A9].
  destruct (sync_complete _ _ _ _ _ _ _ _ _ _ _ _ A1 A2 A3) as [B1 B2]. exists buf', G. split_and!; auto.
  - unfold file_of. cbn. rewrite Hpath. cbn. apply (sy_buf _ _ _ _ _ _ _ _ _ A3).
  - intros mp. specialize (A6 mp). destruct (q_metrics (mc_mem m) !! mp) as [mm|] eqn:Em, (G !! mp) as [g|] eqn:Eg; auto.
    destruct A6 as [->|(i & d & op & mst & p & l & m0 & H1 & H2 & H3)]; [by left|]. eapply busy_shown; eauto.
Qed.
