(** Concurrent calls of methods of usable metrics all return. *)
From Verif Require Import Base BaseFacts Floats GoVal MetricType ByteWriter Hash Units Indom Metrics Registry Prog Client World
  View RegInv Update OpRuns RegFacts WorldInv BufFacts MetricFacts OpFacts Life Sync SyncLive SyncApart Locks LocksFacts LocksLive Conc ConcRuns ConcFacts.
From stdpp Require Import relations.
Local Open Scope Z_scope.

(** Bodies are finite. *)
Lemma bodies_finite o p : Acc (snext (S := mem) (fun o : option nat => match o with Some mp => qstep mp | None => fun _ _ _ _ => False end) o) p.
Proof.
  destruct o as [mp|]; [|constructor; intros y (s & s' & []); done].
  induction p as [o v|n k IH|n k IH|n v k IH|k IH|mk k IH|wr off data kok IHok kerr IHerr].
  1-6: constructor; intros y (s & s' & H); unfold qstep in H; cbn in H; try discriminate; destruct (q_metrics s !! mp) as [m|]; try discriminate; cbn in H; try (injection H as <- <-; auto).
  - destruct (cell_at m n); [|done]. cbn in H. injection H as <- <-. exact IH.
  - revert off. induction data as [|b data IHd]; intros off; constructor; intros y (s & s' & H); unfold qstep in H; cbn in H;
      destruct (f_writers (q_files s) !! wr) as [x|]; try discriminate; cbn in H; destruct (wr_live x); try discriminate;
      destruct (f_inodes (q_files s) !! wr_inode x) as [buf|]; try discriminate; cbn in H; destruct (_ <? _); [by injection H as <- <-|by injection H as <- <-|by injection H as <- <-|].
    destruct (off <? 0).
    + injection H as <- <-. constructor. intros y (s1 & s2 & H). unfold qstep in H. cbn in H. discriminate.
    + injection H as <- <-. apply IHd.
Qed.

Section live.
  Context (w : world) (mps : list nat) (W : w_ok w) (A : apart (w_files w) (h_metrics (w_heap w)) mps).
  Context (L : forall mp m, mp ∈ mps -> h_metrics (w_heap w) !! mp = Some m -> live (w_files w) m).

  Definition has_cell (mp : nat) (n : option gostring) : Prop := exists m c, h_metrics (w_heap w) !! mp = Some m /\ cell_at m n = Some c.
  Fixpoint safe (mp : nat) (p : mprog) : Prop :=
    match p with
    | QRet _ _ => True
    | QVal n k => forall v, (is_Some v -> has_cell mp n) -> safe mp (k v)
    | QUpd n k => forall u, (forall cl, u = Some cl -> exists m c, h_metrics (w_heap w) !! mp = Some m /\ cell_at m n = Some c /\ c_upd c = Some cl) -> safe mp (k u)
    | QSetVal n _ k => has_cell mp n /\ safe mp k
    | QTimer k => forall mk, safe mp (k mk)
    | QSetTimer _ k => safe mp k
    | QWrite wr _ _ kok kerr => safe mp kok /\ safe mp kerr /\
        exists x, f_writers (w_files w) !! wr = Some x /\ wr_live x = true /\ is_Some (f_inodes (w_files w) !! wr_inode x)
    end.

  Lemma safe_step mp m0 p s : h_metrics (w_heap w) !! mp = Some m0 -> safe mp p -> good w s -> mc_ret p = None -> exists p' s', qstep mp p s p' s' /\ safe mp p'.
  Proof.
    intros Hm0 Sp G Hr. pose proof (g_stat _ _ G mp) as S. rewrite Hm0 in S. destruct (q_metrics s !! mp) as [m|] eqn:Em; [|done]. destruct S as (_ & _ & _ & S).
    assert (forall n c, cell_at m n = Some c -> exists c0, cell_at m0 n = Some c0 /\ c_upd c0 = c_upd c) as S1.
    { intros n c Hc. specialize (S n). rewrite Hc in S. destruct (cell_at m0 n) as [c0|]; [|done]. cbn in S. injection S as S. eauto. }
    assert (forall n c, cell_at m0 n = Some c -> exists c0, cell_at m n = Some c0) as S2.
    { intros n c Hc. specialize (S n). rewrite Hc in S. destruct (cell_at m n) as [c0|]; [|done]. eauto. }
    unfold qstep. destruct p as [o v|n k|n k|n v k|k|mk k|wr off data kok kerr]; cbn [qnext safe mc_ret] in *; try rewrite Em; cbn [mbind option_bind].
    - done.
    - do 2 eexists. split; [done|]. apply Sp. intros [v Hv]. destruct (cell_at m n) as [c|] eqn:Hc; [|done]. destruct (S1 _ _ Hc) as (c0 & H0 & _). by exists m0, c0.
    - do 2 eexists. split; [done|]. apply Sp. intros cl Hcl. destruct (cell_at m n) as [c|] eqn:Hc; [|done]. cbn in Hcl. destruct (S1 _ _ Hc) as (c0 & H0 & H1). exists m0, c0. split_and!; auto. congruence.
    - destruct Sp as [(m1 & c & H1 & H2) Sp]. assert (m1 = m0) as -> by congruence. destruct (S2 _ _ H2) as [c0 ->]. cbn. eauto.
    - do 2 eexists. split; [done|]. apply Sp.
    - do 2 eexists. split; [done|]. apply Sp.
    - destruct Sp as (Sp1 & Sp2 & x & Hx & Hl & Hi). rewrite (g_writers _ _ G), Hx. cbn [mbind option_bind]. rewrite Hl. pose proof (g_len _ _ G (wr_inode x)) as El.
      destruct Hi as [buf0 Hi]. rewrite Hi in El. destruct (f_inodes (q_files s) !! wr_inode x) as [buf|]; [|done]. cbn [mbind option_bind].
      destruct (_ <? _); [eauto|]. destruct data as [|b data]; [eauto|]. destruct (off <? 0); [do 2 eexists; split; [done|exact I]|]. do 2 eexists. split; [done|]. cbn [safe]. split_and!; auto. eauto 10.
  Qed.
  Lemma qstep_det mp p s p1 s1 p2 s2 : qstep mp p s p1 s1 -> qstep mp p s p2 s2 -> p1 = p2 /\ s1 = s2.
  Proof. unfold qstep. intros H1 H2. rewrite H1 in H2. by injection H2. Qed.

  Lemma safe_update mp m n c cl v k : mp ∈ mps -> h_metrics (w_heap w) !! mp = Some m -> cell_at m n = Some c -> c_upd c = Some cl -> safe mp k -> safe mp (q_update cl v k).
  Proof.
    intros Hin Hm Hc Hu Hk. destruct (L _ _ Hin Hm _ _ Hc _ Hu) as (x & buf & H1 & H2 & H3 & _).
    assert (exists x, f_writers (w_files w) !! cl_writer cl = Some x /\ wr_live x = true /\ is_Some (f_inodes (w_files w) !! wr_inode x)) as X by eauto.
    unfold q_update, q_write_val. destruct v; cbn [val_bytes safe]; split_and!; auto.
  Qed.
  Lemma safe_store mp m n v k : mp ∈ mps -> h_metrics (w_heap w) !! mp = Some m -> safe mp k -> safe mp (q_store n v k).
  Proof.
    intros Hin Hm Hk. unfold q_store. cbn [safe]. intros [x|] Hx; [|exact I]. specialize (Hx ltac:(eauto)). destruct (go_eqb v x); [done|]. cbn [safe]. intros [cl|] Hu; [|by cbn].
    destruct (Hu _ eq_refl) as (m1 & c & H1 & H2 & H3). eapply safe_update; eauto. by cbn.
  Qed.
  Lemma safe_set mp m v k : mp ∈ mps -> h_metrics (w_heap w) !! mp = Some m -> safe mp k -> safe mp (q_set (md_type (m_desc m)) v k).
  Proof. intros. unfold q_set. destruct (IsCompatible _ v); [|exact I]. by eapply safe_store. Qed.
  Lemma safe_set_instance mp m d v i k : mp ∈ mps -> h_metrics (w_heap w) !! mp = Some m -> safe mp k -> safe mp (q_set_instance (md_type (m_desc m)) d v i k).
  Proof. intros. unfold q_set_instance. destruct (IsCompatible _ v); [|exact I]. destruct (has_instance d i); [|exact I]. by eapply safe_store. Qed.
  Lemma safe_val_instance mp d i k : (forall v, safe mp (k v)) -> safe mp (q_val_instance d i k).
  Proof. intros. unfold q_val_instance. destruct (has_instance d i); [|exact I]. cbn. auto. Qed.
  Lemma safe_int mp v k : (forall z, safe mp (k z)) -> safe mp (q_int v k).
  Proof. intros. unfold q_int. by destruct (as_int64 v). Qed.
  Lemma safe_f64 mp v k : (forall z, safe mp (k z)) -> safe mp (q_f64 v k).
  Proof. intros. unfold q_f64. by destruct (as_f64 v). Qed.
  Lemma safe_timer mp k : (forall b z, safe mp (k b z)) -> safe mp (q_timer k).
  Proof. intros. unfold q_timer. cbn [safe]. intros []; try exact I. auto. Qed.
  Lemma safe_hist_upd mp m d i z k : mp ∈ mps -> h_metrics (w_heap w) !! mp = Some m -> safe mp k -> safe mp (q_hist_upd (md_type (m_desc m)) d i z k).
  Proof. intros. unfold q_hist_upd. cbn [safe]. intros [c|] _; [|exact I]. destruct (go_eqb _ _); [done|]. by apply safe_set_instance. Qed.

  Lemma safe_prog mp m op p : mp ∈ mps -> h_metrics (w_heap w) !! mp = Some m -> prog_of (w_heap w) m op = Some p -> safe mp p.
  Proof.
    intros Hin Hm H. unfold prog_of in H.
    destruct (m_kind m) eqn:Ek; destruct op; try done; try (destruct (m_body m) as [cc|ip cells]; [done|]; destruct (h_indoms (w_heap w) !! ip) as [d|]; [|done]); cbn in H; injection H as <-.
    all: repeat first
      [ exact I
      | eapply safe_set; [done|done|]
      | eapply safe_set_instance; [done|done|]
      | apply safe_val_instance; intros ?
      | apply safe_int; intros ?
      | apply safe_f64; intros ?
      | apply safe_timer; intros ? ?
      | match goal with |- safe _ (q_counter_set _ _) => unfold q_counter_set | |- safe _ (q_counter_inc _ _) => unfold q_counter_inc | |- safe _ (q_gauge_inc _ _) => unfold q_gauge_inc
        | |- safe _ (q_timer_start _) => unfold q_timer_start | |- safe _ (q_timer_reset _) => unfold q_timer_reset | |- safe _ (q_timer_stop _ _ _) => unfold q_timer_stop
        | |- safe _ (q_cv_set _ _ _ _) => unfold q_cv_set | |- safe _ (q_cv_inc _ _ _ _) => unfold q_cv_inc | |- safe _ (q_gv_inc _ _ _ _) => unfold q_gv_inc | |- safe _ (q_hist_record _ _ _) => unfold q_hist_record
        | |- safe _ (if ?b then _ else _) => destruct b | |- safe _ (match ?r with Some _ => _ | None => _ end) => destruct r
        | |- safe _ (QVal _ _) => cbn [safe]; intros ? _
        | |- safe _ (QSetTimer _ _) => cbn [safe]
        | |- safe _ (q_hist_upd _ _ _ _ _) => eapply safe_hist_upd; [done|done|] end ].
  Qed.
  Lemma safe_enter c mp : call_ok w mps c -> mc_obj c = Some mp -> safe mp (mc_enter (w_heap w) c).
  Proof.
    destruct c as [mp' op mst|mp' n]; cbn [call_ok mc_obj mc_enter].
    - intros (Hin & m & p & Hm & Hp & _ & Hf) [= ->]. rewrite Hm. cbn. rewrite Hp. cbn. by eapply safe_prog.
    - intros (Hin & m & Hm) [= ->]. rewrite Hm. cbn [fmap option_fmap option_map]. assert (forall n, safe mp (QVal n (fun v => match v with Some _ => QRet ROk v | None => QRet RPanic None end))) as F.
      { intros n0. cbn. intros [v|] _; exact I. }
      destruct n as [i|]; [|done]. destruct (m_body m) as [c|ip cells]; [done|]. destruct (h_indoms (w_heap w) !! ip) as [d|]; [|exact I]. unfold q_val_instance.
      destruct (has_instance d i); [done|exact I].
  Qed.

  Lemma call_obj c : call_ok w mps c -> exists mp m, mc_obj c = Some mp /\ h_metrics (w_heap w) !! mp = Some m.
  Proof. destruct c; cbn; [intros (_ & m & p & H & _); eauto|intros (_ & m & H); eauto]. Qed.

  Definition kinv (m : mach (O := option nat) (S := mem) (C := mcall) (P := mprog) (R := outcome * option goval)) : Prop := good w (mc_mem m) /\
    forall i th, mc_thr m !! i = Some th -> (forall c, c ∈ t_todo th -> call_ok w mps c) /\
      forall c p, t_cur th = Some (c, p) -> call_ok w mps c /\ exists mp, mc_obj c = Some mp /\ fits w mps mp p /\ safe mp p.
  Lemma kinv_step m m' : cstep (w_heap w) m m' -> kinv m -> kinv m'.
  Proof.
    intros M (G & T). unfold cstep in M. destruct M as [s f ts i d c l Hi Hr Hf|s f ts i d c l X Hi Hr Hf|s f ts i d c p l p' s' Hi Hs|s f ts i d c p l r Hi Hp Hr|s f ts i d c p l r X Hi Hp Hr Hf];
      cbn in *; pose proof (lookup_lt_Some _ _ _ Hi) as Lt; destruct (T _ _ Hi) as [T1 T2]; cbn in T1, T2.
    1,2: split; [exact G|]; intros j th Hj; cbn in Hj; destruct (decide (i = j)) as [<-|N]; [|rewrite list_lookup_insert_ne in Hj by done; exact (T _ _ Hj)];
      rewrite list_lookup_insert in Hj by done; injection Hj as <-; cbn; split; [intros; apply T1; by right|]; intros c0 p0 [= <- <-];
      pose proof (T1 c ltac:(left)) as Ok; split; [done|]; destruct (call_obj c Ok) as (mp & m0 & E & _); exists mp; split; [done|]; split; [|by apply safe_enter];
      pose proof (enter_fit w mps A c Ok) as F; by rewrite E in F.
    - destruct (T2 c p eq_refl) as (Ok & mp & E & F & Sf). rewrite E in Hs. destruct (call_obj c Ok) as (mp' & m0 & E' & Hm0). assert (mp' = mp) as -> by congruence.
      destruct (step_good w mps (Some mp) p s p' s' F G Hs) as (F' & G' & _). split; [exact G'|]. cbn. intros j th Hj. destruct (decide (i = j)) as [<-|N]; [|rewrite list_lookup_insert_ne in Hj by done; exact (T _ _ Hj)].
      rewrite list_lookup_insert in Hj by done. injection Hj as <-. cbn. split; [done|]. intros c0 p0 [= <- <-]. split; [done|]. exists mp. split_and!; auto.
      destruct (safe_step mp m0 p s Hm0 Sf G) as (p2 & s2 & H2 & Sf2); [|by destruct (qstep_det _ _ _ _ _ _ _ Hs H2) as [-> _]].
      destruct p; done.
    - split; [exact G|]. intros j th Hj. cbn in Hj. destruct (decide (i = j)) as [<-|N]; [|rewrite list_lookup_insert_ne in Hj by done; exact (T _ _ Hj)].
      rewrite list_lookup_insert in Hj by done. injection Hj as <-. cbn. split; [done|intros; done].
    - split; [exact G|]. intros j th Hj. cbn in Hj. destruct (decide (i = j)) as [<-|N]; [|rewrite list_lookup_insert_ne in Hj by done; exact (T _ _ Hj)].
      rewrite list_lookup_insert in Hj by done. injection Hj as <-. cbn. split; [done|intros; done].
  Qed.

  (** Every execution can be continued to one in which all calls have returned, and none
      goes on forever. *)
  Theorem metrics_complete css m : (forall l c, l ∈ css -> c ∈ l -> call_ok w mps c) -> rtc (cstep (w_heap w)) (m_start (world_mem w) css) m ->
    (exists m', rtc (cstep (w_heap w)) m m' /\ m_done m') /\ Acc (flip (cstep (w_heap w))) m.
  Proof.
    intros Hc H. unfold cstep in *. split; [|apply terminates, bodies_finite]. eapply completes; [apply bodies_finite| |exact H|].
    - intros [mp|] p s; [|right; intros ? ? []]. unfold qstep. destruct (qnext mp p s) as [[p' s']|]; [left; eauto|right; intros; done].
    - clear H m. intros m H i d c p l Hi Hr. assert (kinv m) as (G & T).
      { assert (kinv (m_start (world_mem w) css)) as K.
        { split; [apply good_start|]. intros j th Hj. cbn in Hj. rewrite list_lookup_fmap in Hj. destruct (css !! j) as [l0|] eqn:El; [|done]. injection Hj as <-. cbn.
          split; [intros; eapply Hc; eauto; by eapply elem_of_list_lookup_2|done]. }
        remember (m_start (world_mem w) css) as ms eqn:E. clear E. induction H as [|m1 m2 m3 M _ IH]; [done|]. apply IH; [done|]. by apply (kinv_step m1). }
      destruct (T _ _ Hi) as [_ T2]. destruct (T2 c p eq_refl) as (Ok & mp & E & F & Sf). rewrite E. destruct (call_obj c Ok) as (mp' & m0 & E' & Hm0). assert (mp' = mp) as -> by congruence.
      destruct (safe_step mp m0 p (mc_mem m) Hm0 Sf G Hr) as (p2 & s2 & H2 & _). eauto.
  Qed.
End live.
