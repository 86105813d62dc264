(** The step by step bodies of Conc.v do what the methods of Metrics.v do. *)
From Verif Require Import Base BaseFacts Floats GoVal MetricType ByteWriter Hash Units Indom Metrics Registry Prog Client World OpRuns RegInv Locks Conc.
From stdpp Require Import relations.
Local Open Scope Z_scope.

Notation qsteps mp := (rtc (fun (x y : mprog * mem) => qstep mp x.1 x.2 y.1 y.2)).

(** [p] from [s] ends with outcome [o] in [s1]: reaching [k] if all went well. *)
Definition leads (mp : nat) (p : mprog) (s : mem) (o : outcome) (k : mprog) (s1 : mem) : Prop :=
  match o with
  | ROk => qsteps mp (p, s) (k, s1)
  | RErr => qsteps mp (p, s) (QRet RErr None, s1)
  | RPanic => qsteps mp (p, s) (QRet RPanic None, s1)
  | RFault => exists p' s', qsteps mp (p, s) (p', s') /\ qnext mp p' s' = None /\ mc_ret p' = None
  end.

Lemma leads_refl mp k s : leads mp k s ROk k s.
Proof. apply rtc_refl. Qed.
Lemma leads_trans mp p s k s1 o k2 s2 : leads mp p s ROk k s1 -> leads mp k s1 o k2 s2 -> leads mp p s o k2 s2.
Proof.
  intros H1 H2. destruct o; cbn in *; try (by eapply rtc_transitive).
  destruct H2 as (p' & s' & H & ?). exists p', s'. split; [|done]. by eapply rtc_transitive.
Qed.
Lemma leads_step mp p s p1 s1 o k2 s2 : qnext mp p s = Some (p1, s1) -> leads mp p1 s1 o k2 s2 -> leads mp p s o k2 s2.
Proof. intros H. apply leads_trans. apply rtc_once. exact H. Qed.
Lemma leads_err mp s k : leads mp (QRet RErr None) s RErr k s.
Proof. apply rtc_refl. Qed.
Lemma leads_panic mp s k : leads mp (QRet RPanic None) s RPanic k s.
Proof. apply rtc_refl. Qed.

Definition with_files (s : mem) (fs : files) : mem := mkMem (q_metrics s) fs.

(** Write. *)
Lemma leads_write mp w kok kerr d : forall s off, 
  match with_writer (q_files s) w (fun b => bw_write b d off) with
  | (ROk, fs') => leads mp (QWrite w off d kok kerr) s ROk kok (with_files s fs')
  | (RErr, fs') => leads mp (QWrite w off d kok kerr) s ROk kerr (with_files s fs')
  | (o, fs') => leads mp (QWrite w off d kok kerr) s o kok (with_files s fs')
  end.
Proof.
  induction d as [|b d IH]; intros s off; unfold with_writer.
  - destruct (f_writers (q_files s) !! w) as [wr|] eqn:Ew.
    2:{ exists (QWrite w off [] kok kerr), s. cbn. rewrite Ew. split_and!; [apply rtc_refl|done..]. }
    destruct (wr_live wr) eqn:El.
    2:{ exists (QWrite w off [] kok kerr), s. cbn. rewrite Ew. cbn. rewrite El. split_and!; [apply rtc_refl|done..]. }
    destruct (f_inodes (q_files s) !! wr_inode wr) as [buf|] eqn:Eb.
    2:{ exists (QWrite w off [] kok kerr), s. cbn. rewrite Ew. cbn. rewrite El, Eb. split_and!; [apply rtc_refl|done..]. }
    assert (with_files s (mkFiles (f_writers (q_files s)) (<[wr_inode wr := buf]> (f_inodes (q_files s)))) = s) as E.
    { rewrite insert_id by done. by destruct s as [ms [a b]]. }
    unfold bw_write. destruct (zlen buf <? off + zlen []) eqn:Ez; rewrite ?E.
    + eapply leads_step; [|apply leads_refl]. cbn [qnext]. rewrite Ew. cbn [mbind option_bind]. rewrite El, Eb. cbn [mbind option_bind]. by rewrite Ez.
    + cbn [store_loop]. rewrite E. eapply leads_step; [|apply leads_refl]. cbn [qnext]. rewrite Ew. cbn [mbind option_bind]. rewrite El, Eb. cbn [mbind option_bind]. by rewrite Ez.
  - destruct (f_writers (q_files s) !! w) as [wr|] eqn:Ew.
    2:{ exists (QWrite w off (b :: d) kok kerr), s. cbn. rewrite Ew. split_and!; [apply rtc_refl|done..]. }
    destruct (wr_live wr) eqn:El.
    2:{ exists (QWrite w off (b :: d) kok kerr), s. cbn. rewrite Ew. cbn. rewrite El. split_and!; [apply rtc_refl|done..]. }
    destruct (f_inodes (q_files s) !! wr_inode wr) as [buf|] eqn:Eb.
    2:{ exists (QWrite w off (b :: d) kok kerr), s. cbn. rewrite Ew. cbn. rewrite El, Eb. split_and!; [apply rtc_refl|done..]. }
    assert (with_files s (mkFiles (f_writers (q_files s)) (<[wr_inode wr := buf]> (f_inodes (q_files s)))) = s) as E.
    { rewrite insert_id by done. by destruct s as [ms [a c]]. }
    unfold bw_write. destruct (zlen buf <? off + zlen (b :: d)) eqn:Ez; rewrite ?E.
    { eapply leads_step; [|apply leads_refl]. cbn [qnext]. rewrite Ew. cbn [mbind option_bind]. rewrite El, Eb. cbn [mbind option_bind]. by rewrite Ez. }
    cbn [store_loop]. destruct (off <? 0) eqn:Eo.
    { unfold bset. rewrite Eo. cbn [orb]. rewrite E. eapply leads_step; [|apply leads_panic]. cbn [qnext]. rewrite Ew. cbn [mbind option_bind]. rewrite El, Eb. cbn [mbind option_bind]. by rewrite Ez, Eo. }
    assert (bset buf off b = Some (<[Z.to_nat off := b]> buf)) as Es.
    { unfold bset. rewrite Eo. replace (zlen buf <=? off) with false; [done|]. symmetry. apply Z.leb_gt. unfold zlen in *. cbn [length] in Ez. lia. }
    rewrite Es. set (buf1 := <[Z.to_nat off := b]> buf).
    set (s1 := mkMem (q_metrics s) (mkFiles (f_writers (q_files s)) (<[wr_inode wr := buf1]> (f_inodes (q_files s))))).
    assert (qnext mp (QWrite w off (b :: d) kok kerr) s = Some (QWrite w (off + 1) d kok kerr, s1)) as Hq.
    { cbn [qnext]. rewrite Ew. cbn [mbind option_bind]. rewrite El, Eb. cbn [mbind option_bind]. rewrite Ez, Eo. unfold do_store. cbn [fst snd]. rewrite Es. done. }
    specialize (IH s1 (off + 1)). unfold with_writer in IH. cbn [q_files f_writers f_inodes s1] in IH. rewrite Ew, El, lookup_insert in IH.
    unfold bw_write in IH. assert (zlen buf1 = zlen buf) as Elen by (unfold zlen, buf1; by rewrite insert_length).
    replace (zlen buf1 <? off + 1 + zlen d) with false in IH.
    2:{ symmetry. apply Z.ltb_ge. rewrite Elen. apply Z.ltb_ge in Ez. unfold zlen in *. cbn [length] in Ez. lia. }
    destruct (store_loop buf1 (off + 1) d) as [buf2 []]; rewrite insert_insert in IH; (eapply leads_step; [exact Hq|]); exact IH.
Qed.

Definition lead_upd (mp : nat) (p : mprog) (s : mem) (r : outcome * files) (k : mprog) : Prop :=
  leads mp p s r.1 k (with_files s r.2).

Lemma with_writer_err_pos fs w f g : (forall b, match f b, g b with WOk b1 _, WOk b2 _ => b1 = b2 | WErr b1 _, WErr b2 _ => b1 = b2 | WPanic b1, WPanic b2 => b1 = b2 | _, _ => False end) ->
  with_writer fs w f = with_writer fs w g.
Proof.
  intros H. unfold with_writer. destruct (f_writers fs !! w) as [x|]; [|done]. destruct (wr_live x); [|done]. destruct (f_inodes fs !! wr_inode x) as [b|]; [|done].
  specialize (H b). destruct (f b), (g b); try done; by subst.
Qed.

Lemma leads_write_val mp cl v k s : lead_upd mp (q_write_val cl v k) s (with_writer (q_files s) (cl_writer cl) (fun b => bw_write_val b v (cl_off cl))) k.
Proof.
  assert (forall d, lead_upd mp (QWrite (cl_writer cl) (cl_off cl) d k (QRet RErr None)) s (with_writer (q_files s) (cl_writer cl) (fun b => bw_write b d (cl_off cl))) k) as W.
  { intros d. pose proof (leads_write mp (cl_writer cl) k (QRet RErr None) d s (cl_off cl)) as H. unfold lead_upd.
    destruct (with_writer _ _ _) as [[] fs']; cbn [fst snd]; try exact H. }
  assert (forall x, val_bytes x = None -> lead_upd mp (QWrite (cl_writer cl) (cl_off cl) [] (QRet RErr None) (QRet RErr None)) s
     (with_writer (q_files s) (cl_writer cl) (fun b => WErr b 0)) k) as N.
  { intros x _. pose proof (leads_write mp (cl_writer cl) (QRet RErr None) (QRet RErr None) [] s (cl_off cl)) as H. unfold lead_upd, with_writer in *.
    destruct (f_writers (q_files s) !! cl_writer cl) as [wr|]; [|exact H]. destruct (wr_live wr); [|exact H]. destruct (f_inodes (q_files s) !! wr_inode wr) as [buf|]; [|exact H].
    unfold bw_write in H. cbn [store_loop] in H. destruct (zlen buf <? cl_off cl + zlen []); exact H. }
  destruct v as [z|z|z|z|z|z|z|z|s0|]; cbn [q_write_val bw_write_val]; 
    try (match goal with |- context [val_bytes ?x] => destruct (val_bytes x) as [d|] eqn:E; [apply W|apply (N _ E)] end).
  - rewrite (with_writer_err_pos _ _ _ (fun b => bw_write b s0 (cl_off cl))); [apply W|]. intros b. unfold bw_write_string. by destruct (bw_write b s0 (cl_off cl)).
Qed.

Lemma leads_update mp cl v k s : lead_upd mp (q_update cl v k) s (run_update (q_files s) cl v) k.
Proof.
  pose proof (leads_write_val mp cl v k s) as W.
  destruct v as [z|z|z|z|z|z|z|z|s0|]; try exact W. clear W. cbn [q_update run_update].
  pose proof (leads_write mp (cl_writer cl) (q_write_val cl (VStr s0) k) (QRet RPanic None) (zeros StringLength) s (cl_off cl)) as H. unfold lead_upd.
  assert (with_writer (q_files s) (cl_writer cl) (fun b => bw_must_write b (zeros StringLength) (cl_off cl)) =
    (match with_writer (q_files s) (cl_writer cl) (fun b => bw_write b (zeros StringLength) (cl_off cl)) with (RErr, fs) => (RPanic, fs) | r => r end)) as E.
  { unfold with_writer, bw_must_write. destruct (f_writers (q_files s) !! cl_writer cl) as [x|]; [|done]. destruct (wr_live x); [|done].
    destruct (f_inodes (q_files s) !! wr_inode x) as [b|]; [|done]. by destruct (bw_write b (zeros StringLength) (cl_off cl)). }
  rewrite E. destruct (with_writer (q_files s) (cl_writer cl) (fun b => bw_write b (zeros StringLength) (cl_off cl))) as [[] fs']; cbn [fst snd].
  - eapply leads_trans; [exact H|]. apply (leads_write_val mp cl (VStr s0) k (with_files s fs')).
  - exact H.
  - exact H.
  - exact H.
Qed.

(** State with metric [mp] and the files replaced. *)
Definition st (s : mem) (mp : nat) (fs : files) (m : metric) : mem := mkMem (<[mp := m]> (q_metrics s)) fs.
Lemma st_id s mp m : q_metrics s !! mp = Some m -> st s mp (q_files s) m = s.
Proof. intros H. unfold st. rewrite insert_id by done. by destruct s. Qed.
Lemma st_st s mp fs m fs' m' : st (st s mp fs m) mp fs' m' = st s mp fs' m'.
Proof. unfold st. cbn. by rewrite insert_insert. Qed.
Lemma st_lookup s mp fs m : q_metrics (st s mp fs m) !! mp = Some m.
Proof. apply lookup_insert. Qed.

Definition lead_m (mp : nat) (p : mprog) (s : mem) (r : mres) (k : mprog) : Prop := leads mp p s r.1.1 k (st s mp r.1.2 r.2).

Lemma lead_same mp s m k : q_metrics s !! mp = Some m -> lead_m mp k s (ROk, q_files s, m) k.
Proof. intros H. unfold lead_m. cbn. rewrite st_id by done. apply rtc_refl. Qed.
Lemma lead_err mp s m k : q_metrics s !! mp = Some m -> lead_m mp (QRet RErr None) s (RErr, q_files s, m) k.
Proof. intros H. unfold lead_m. cbn. rewrite st_id by done. apply rtc_refl. Qed.
Lemma lead_panic mp s m k : q_metrics s !! mp = Some m -> lead_m mp (QRet RPanic None) s (RPanic, q_files s, m) k.
Proof. intros H. unfold lead_m. cbn. rewrite st_id by done. apply rtc_refl. Qed.
Lemma lead_step mp p s p1 r k : qnext mp p s = Some (p1, s) -> lead_m mp p1 s r k -> lead_m mp p s r k.
Proof. unfold lead_m. intros H. by apply leads_step. Qed.
(** Sequencing. *)
Lemma lead_bind mp p s r k f k2 : lead_m mp p s r k ->
  (forall fs m, r = (ROk, fs, m) -> lead_m mp k (st s mp fs m) (f fs m) k2) -> lead_m mp p s (Metrics.mbind r f) k2.
Proof.
  destruct r as [[o fs] m]. unfold lead_m. cbn [fst snd]. intros H1 H2. destruct o; try exact H1. cbn [Metrics.mbind].
  specialize (H2 fs m eq_refl). rewrite st_st in H2. by eapply leads_trans.
Qed.

Lemma lead_val mp n k s m r q : q_metrics s !! mp = Some m -> lead_m mp (k (c_val <$> cell_at m n)) s r q -> lead_m mp (QVal n k) s r q.
Proof. intros H. apply lead_step. cbn. by rewrite H. Qed.

Lemma lead_store mp n v k s m c : q_metrics s !! mp = Some m -> cell_at m n = Some c ->
  lead_m mp (q_store n v k) s (let '(o, fs', c') := store_cell (q_files s) c v in (o, fs', put_cell m n c')) k.
Proof.
  intros Hm Hc. assert (put_cell m n c = m) as Ep.
  { unfold cell_at, put_cell in *. destruct m as [d mk [c0|ip cells]]; cbn in *; destruct n as [i|]; try discriminate.
    - by injection Hc as ->.
    - unfold with_body. cbn. by rewrite insert_id. }
  apply (lead_val _ _ _ _ m _ _ Hm). rewrite Hc. cbn [fmap option_fmap option_map]. unfold store_cell. destruct (go_eqb v (c_val c)).
  { rewrite Ep. by apply lead_same. }
  apply lead_step with (p1 := match c_upd c with None => QSetVal n v k | Some cl => q_update cl v (QSetVal n v k) end).
  { cbn. rewrite Hm. cbn. rewrite Hc. done. }
  assert (forall s1, q_metrics s1 = q_metrics s -> leads mp (QSetVal n v k) s1 ROk k (st s mp (q_files s1) (put_cell m n (mkCell v (c_upd c))))) as W.
  { intros s1 E. apply rtc_once. cbn [fst snd]. unfold qstep. cbn [qnext]. rewrite E, Hm. cbn [mbind option_bind]. rewrite Hc. cbn [mbind option_bind]. unfold st, upd_metric. by rewrite E. }
  destruct (c_upd c) as [cl|] eqn:Eu; [|unfold lead_m; cbn [fst snd]; by apply W].
  pose proof (leads_update mp cl v (QSetVal n v k) s) as H. unfold lead_upd in H. destruct (run_update (q_files s) cl v) as [o fs']. cbn [fst snd] in H.
  unfold lead_m. assert (with_files s fs' = st s mp fs' m) as Es by (unfold with_files, st; by rewrite insert_id).
  destruct o; cbn [fst snd].
  - eapply leads_trans; [exact H|]. by apply (W (with_files s fs')).
  - rewrite Ep, <- Es. exact H.
  - rewrite Ep, <- Es. exact H.
  - exact H.
Qed.

Lemma lead_set mp v k s m c : q_metrics s !! mp = Some m -> m_body m = BSingle c -> lead_m mp (q_set (md_type (m_desc m)) v k) s (m_set (q_files s) m v) k.
Proof.
  intros Hm Hb. unfold q_set, m_set, set_cell. rewrite Hb. destruct (IsCompatible _ v).
  - pose proof (lead_store mp None (resolve (md_type (m_desc m)) v) k s m c Hm) as H. unfold cell_at, put_cell in H. rewrite Hb in H. specialize (H eq_refl).
    by destruct (store_cell (q_files s) c _) as [[o fs'] c'].
  - replace (with_body m (BSingle c)) with m by (destruct m; cbn in *; by subst). by apply lead_err.
Qed.
Lemma lead_set_instance mp d v i k s m ip cells : q_metrics s !! mp = Some m -> m_body m = BInst ip cells ->
  lead_m mp (q_set_instance (md_type (m_desc m)) d v i k) s (m_set_instance (q_files s) d m v i) k.
Proof.
  intros Hm Hb. unfold q_set_instance, m_set_instance. rewrite Hb. destruct (IsCompatible _ v); [|by apply lead_err]. destruct (has_instance d i); [|by apply lead_err].
  destruct (cells !! i) as [c|] eqn:Ec.
  - pose proof (lead_store mp (Some i) (resolve (md_type (m_desc m)) v) k s m c Hm) as H. unfold cell_at, put_cell in H. rewrite Hb in H. specialize (H Ec).
    by destruct (store_cell (q_files s) c _) as [[o fs'] c'].
  - apply (lead_val _ _ _ _ m _ _ Hm). unfold cell_at. rewrite Hb, Ec. by apply lead_panic.
Qed.

Lemma as_int_single m c : m_body m = BSingle c -> c_val <$> cell_at m None = m_val m.
Proof. intros H. unfold cell_at, m_val. by rewrite H. Qed.
Lemma val_inst m ip cells d i : m_body m = BInst ip cells -> val_instance d m i = if has_instance d i then Some (c_val <$> cell_at m (Some i)) else None.
Proof. intros H. unfold val_instance, cell_at. by rewrite H. Qed.

(** ** The methods *)
Lemma lead_counter_set mp z s m c : q_metrics s !! mp = Some m -> m_body m = BSingle c -> lead_m mp (q_counter_set (md_type (m_desc m)) z) s (counter_set (q_files s) m z) q_ok.
Proof.
  intros Hm Hb. unfold q_counter_set, counter_set. apply (lead_val _ _ _ _ m _ _ Hm). rewrite (as_int_single m c Hb). unfold q_int. destruct (as_int64 (m_val m)) as [v|]; [|by apply lead_panic].
  destruct (z <? v); [by apply lead_err|]. by eapply lead_set.
Qed.
Lemma lead_counter_inc mp z s m c : q_metrics s !! mp = Some m -> m_body m = BSingle c -> lead_m mp (q_counter_inc (md_type (m_desc m)) z) s (counter_inc (q_files s) m z) q_ok.
Proof.
  intros Hm Hb. unfold q_counter_inc, counter_inc. destruct (z <? 0); [by apply lead_err|]. destruct (z =? 0); [by apply lead_same|].
  apply (lead_val _ _ _ _ m _ _ Hm). rewrite (as_int_single m c Hb). unfold q_int. destruct (as_int64 (m_val m)) as [v|]; [|by apply lead_panic]. by eapply lead_set.
Qed.
Lemma lead_gauge_inc mp z s m c : q_metrics s !! mp = Some m -> m_body m = BSingle c -> lead_m mp (q_gauge_inc (md_type (m_desc m)) z) s (gauge_inc (q_files s) m z) q_ok.
Proof.
  intros Hm Hb. unfold q_gauge_inc, gauge_inc. destruct (f64_eqb z f64_zero); [by apply lead_same|].
  apply (lead_val _ _ _ _ m _ _ Hm). rewrite (as_int_single m c Hb). unfold q_f64. destruct (as_f64 (m_val m)) as [v|]; [|by apply lead_panic]. by eapply lead_set.
Qed.
Lemma lead_timer mp k s m b since r : q_metrics s !! mp = Some m -> m_kind m = MTimer b since -> lead_m mp (k b since) s r q_ok -> lead_m mp (q_timer k) s r q_ok.
Proof. intros Hm Hk. apply lead_step. cbn. rewrite Hm. cbn. by rewrite Hk. Qed.
Lemma lead_set_timer mp mk k s m : q_metrics s !! mp = Some m -> lead_m mp (QSetTimer mk k) s (ROk, q_files s, with_kind m mk) k.
Proof. intros Hm. unfold lead_m. cbn. apply rtc_once. cbn. unfold qstep. cbn. by rewrite Hm. Qed.
Lemma lead_timer_start mp now s m b since : q_metrics s !! mp = Some m -> m_kind m = MTimer b since -> lead_m mp (q_timer_start now) s (timer_start (q_files s) m now) q_ok.
Proof. intros Hm Hk. apply (lead_timer _ _ _ m b since _ Hm Hk). unfold timer_start. rewrite Hk. destruct b; [by apply lead_err|]. by apply lead_set_timer. Qed.
Lemma lead_timer_reset mp s m b since c : q_metrics s !! mp = Some m -> m_kind m = MTimer b since -> m_body m = BSingle c ->
  lead_m mp (q_timer_reset (md_type (m_desc m))) s (timer_reset (q_files s) m) q_ok.
Proof. intros Hm Hk Hb. apply (lead_timer _ _ _ m b since _ Hm Hk). unfold timer_reset. rewrite Hk. destruct b; [by apply lead_err|]. by eapply lead_set. Qed.
Lemma lead_timer_stop mp now s m b since c : q_metrics s !! mp = Some m -> m_kind m = MTimer b since -> m_body m = BSingle c ->
  lead_m mp (q_timer_stop (md_type (m_desc m)) (md_unit (m_desc m)) now) s (timer_stop (q_files s) m now).1 q_ok.
Proof.
  intros Hm Hk Hb. apply (lead_timer _ _ _ m b since _ Hm Hk). unfold timer_stop. rewrite Hk. destruct b; [|by apply lead_err].
  apply (lead_val _ _ _ _ m _ _ Hm). rewrite (as_int_single m c Hb). unfold q_f64. destruct (as_f64 (m_val m)) as [v|]; [|by apply lead_panic].
  set (x := VF64 (f64_add v (timer_increment (md_unit (m_desc m)) (time_since now since)))).
  pose proof (lead_bind mp _ s _ _ (fun fs m => (ROk, fs, with_kind m (MTimer false since))) q_ok (lead_set mp x (QSetTimer (MTimer false since) q_ok) s m c Hm Hb)) as H.
  destruct (m_set (q_files s) m x) as [[o fs'] m'] eqn:E; destruct o; cbn [Metrics.mbind fst] in *; apply H; intros fs2 m2 [= <- <-].
  apply (lead_set_timer mp (MTimer false since) q_ok (st s mp fs' m') m'), st_lookup.
Qed.
Lemma lead_val_instance mp d i k s m ip cells r q : q_metrics s !! mp = Some m -> m_body m = BInst ip cells ->
  (forall v, val_instance d m i = Some v -> lead_m mp (k v) s r q) -> (val_instance d m i = None -> r = (RErr, q_files s, m)) -> lead_m mp (q_val_instance d i k) s r q.
Proof.
  intros Hm Hb H1 H2. rewrite (val_inst m ip cells d i Hb) in H1, H2. unfold q_val_instance. destruct (has_instance d i).
  - apply (lead_val _ _ _ _ m _ _ Hm). by apply H1.
  - rewrite H2 by done. by apply lead_err.
Qed.
Lemma lead_cv_set mp d z i s m ip cells : q_metrics s !! mp = Some m -> m_body m = BInst ip cells -> lead_m mp (q_cv_set (md_type (m_desc m)) d z i) s (cv_set (q_files s) d m z i) q_ok.
Proof.
  intros Hm Hb. unfold q_cv_set, cv_set. eapply lead_val_instance; eauto; [|by intros ->]. intros v ->. unfold q_int. destruct (as_int64 v) as [y|]; [|by apply lead_panic].
  destruct (z <? y); [by apply lead_err|]. by eapply lead_set_instance.
Qed.
Lemma lead_cv_inc mp d z i s m ip cells : q_metrics s !! mp = Some m -> m_body m = BInst ip cells -> lead_m mp (q_cv_inc (md_type (m_desc m)) d z i) s (cv_inc (q_files s) d m z i) q_ok.
Proof.
  intros Hm Hb. unfold q_cv_inc, cv_inc. destruct (z <? 0); [by apply lead_err|]. destruct (z =? 0); [by apply lead_same|].
  eapply lead_val_instance; eauto; [|by intros ->]. intros v ->. unfold q_int. destruct (as_int64 v) as [y|]; [|by apply lead_panic]. by eapply lead_set_instance.
Qed.
Lemma lead_gv_inc mp d z i s m ip cells : q_metrics s !! mp = Some m -> m_body m = BInst ip cells -> lead_m mp (q_gv_inc (md_type (m_desc m)) d z i) s (gv_inc (q_files s) d m z i) q_ok.
Proof.
  intros Hm Hb. unfold q_gv_inc, gv_inc. eapply lead_val_instance; eauto; [|by intros ->]. intros v ->. unfold q_f64. destruct (as_f64 v) as [y|]; [|by apply lead_panic].
  by eapply lead_set_instance.
Qed.
Lemma lead_hist_upd mp d i z k s m ip cells : q_metrics s !! mp = Some m -> m_body m = BInst ip cells ->
  lead_m mp (q_hist_upd (md_type (m_desc m)) d i z k) s (hist_upd1 (q_files s) d m i z) k.
Proof.
  intros Hm Hb. unfold q_hist_upd, hist_upd1. rewrite Hb. apply (lead_val _ _ _ _ m _ _ Hm). unfold cell_at. rewrite Hb.
  destruct (cells !! i) as [c|]; cbn [fmap option_fmap option_map]; [|by apply lead_panic]. destruct (go_eqb (c_val c) (VF64 z)); [by apply lead_same|]. by eapply lead_set_instance.
Qed.
Lemma set_instance_static fs d m v i o fs' m' ip cells : m_body m = BInst ip cells -> m_set_instance fs d m v i = (o, fs', m') ->
  m_desc m' = m_desc m /\ m_kind m' = m_kind m /\ exists cells', m_body m' = BInst ip cells'.
Proof.
  intros Hb. unfold m_set_instance. rewrite Hb. repeat case_match; intros [= <- <- <-]; cbn; eauto.
Qed.
Lemma hist_upd_static fs d m i z o fs' m' ip cells : m_body m = BInst ip cells -> hist_upd1 fs d m i z = (o, fs', m') ->
  m_desc m' = m_desc m /\ exists cells', m_body m' = BInst ip cells'.
Proof.
  intros Hb. unfold hist_upd1. rewrite Hb. destruct (cells !! i) as [c|]; [|intros [= <- <- <-]; eauto]. destruct (go_eqb _ _); [intros [= <- <- <-]; eauto|].
  intros H. destruct (set_instance_static _ _ _ _ _ _ _ _ _ _ Hb H) as (? & ? & ?). auto.
Qed.
Lemma lead_hist_record mp d res s m ip cells : q_metrics s !! mp = Some m -> m_body m = BInst ip cells ->
  lead_m mp (q_hist_record (md_type (m_desc m)) d res) s (hist_record (q_files s) d m res) q_ok.
Proof.
  intros Hm Hb. destruct res as [x|]; [|by apply lead_err]. cbn [q_hist_record hist_record]. unfold hist_update.
  eapply lead_bind; [by eapply lead_hist_upd|]. intros fs1 m1 E1. destruct (hist_upd_static _ _ _ _ _ _ _ _ _ _ Hb E1) as (D1 & c1 & B1). rewrite <- D1.
  eapply (lead_bind mp _ (st s mp fs1 m1)); [eapply (lead_hist_upd mp d _ _ _ (st s mp fs1 m1)); [apply st_lookup|exact B1]|].
  intros fs2 m2 E2. destruct (hist_upd_static _ _ _ _ _ _ _ _ _ _ B1 E2) as (D2 & c2 & B2). rewrite <- D2, st_st.
  eapply (lead_bind mp _ (st s mp fs2 m2)); [eapply (lead_hist_upd mp d _ _ _ (st s mp fs2 m2)); [apply st_lookup|exact B2]|].
  intros fs3 m3 E3. destruct (hist_upd_static _ _ _ _ _ _ _ _ _ _ B2 E3) as (D3 & c3 & B3). rewrite <- D3, st_st.
  eapply (lead_bind mp _ (st s mp fs3 m3)); [eapply (lead_hist_upd mp d _ _ _ (st s mp fs3 m3)); [apply st_lookup|exact B3]|].
  intros fs4 m4 E4. destruct (hist_upd_static _ _ _ _ _ _ _ _ _ _ B3 E4) as (D4 & c4 & B4). rewrite <- D4, st_st.
  eapply (lead_hist_upd mp d _ _ _ (st s mp fs4 m4)); [apply st_lookup|exact B4].
Qed.

(** ** Every method *)
Lemma prog_leads hp mp s m op p : kind_ok (m_kind m) (md_type (m_desc m)) (m_body m) -> q_metrics s !! mp = Some m -> prog_of hp m op = Some p ->
  exists r, run_op (q_files s) hp m op = Some (if is_up op then must_m r else r) /\ lead_m mp p s r q_ok.
Proof.
  intros Hk Hm Hp. unfold prog_of, run_op, with_dom in *. destruct (m_kind m) as [| | |b since| | | |] eqn:Ek; destruct op; try discriminate; cbn [kind_ok] in Hk; cbn [is_up].
  all: destruct (m_body m) as [c|ip cells] eqn:Hb; try contradiction; try discriminate.
  all: try (injection Hp as <-; eexists; split; [reflexivity|]; 
    first [by eapply lead_set|by eapply lead_counter_set|by eapply lead_counter_inc|by eapply lead_gauge_inc|by eapply lead_timer_start|by eapply lead_timer_reset|by eapply lead_timer_stop]).
  all: destruct (h_indoms hp !! ip) as [d|] eqn:Ed; [|discriminate]; cbn in Hp; injection Hp as <-; eexists; (split; [reflexivity|]);
    first [by eapply lead_set_instance|by eapply lead_cv_set|by eapply lead_cv_inc|by eapply lead_gv_inc|by eapply lead_hist_record].
Qed.

(** Bodies are deterministic. *)
Lemma steps_unique mp x y z : qsteps mp x y -> qsteps mp x z -> qnext mp y.1 y.2 = None -> qsteps mp z y.
Proof.
  intros H1. revert z. induction H1 as [x|x x1 y S1 H1 IH]; intros z H2 N.
  - inversion H2 as [|? x1 ? S1]; subst; [apply rtc_refl|]. unfold qstep in S1. congruence.
  - inversion H2 as [|? x2 ? S2 H2']; subst; [by eapply rtc_l|]. assert (x1 = x2) as <-.
    { unfold qstep in *. rewrite S1 in S2. destruct x1, x2. cbn in *. congruence. }
    by apply IH.
Qed.
Lemma ret_steps mp o v s y : qsteps mp (QRet o v, s) y -> y = (QRet o v, s).
Proof. inversion 1 as [|? ? ? E]; subst; [done|]. cbn in E. discriminate. Qed.

(** The only thing a body that returned can have returned. *)
Lemma leads_only mp p s r o v s' : lead_m mp p s r q_ok -> qsteps mp (p, s) (QRet o v, s') -> r = (o, q_files s', r.2) /\ v = None /\ s' = st s mp r.1.2 r.2 /\ o <> RFault.
Proof.
  destruct r as [[ro fs] m']. unfold lead_m. cbn [fst snd]. intros L H.
  assert (forall x, qsteps mp (p, s) (QRet x None, st s mp fs m') -> o = x /\ v = None /\ s' = st s mp fs m') as U.
  { intros x Hx. pose proof (steps_unique _ _ _ _ H Hx eq_refl) as E. apply ret_steps in E. by simplify_eq. }
  destruct ro; cbn in L.
  1-3: destruct (U _ L) as (-> & -> & ->); split_and!; try done.
  destruct L as (p' & s1 & L & N & R). pose proof (steps_unique _ _ _ _ L H N) as E. apply ret_steps in E. simplify_eq/=.
Qed.
