(** What a reader of the file sees while goroutines update metrics: an invariant of the
    machine of Conc.v. *)
From Verif Require Import Base BaseFacts Floats GoVal MetricType ByteWriter Hash Units Indom Metrics Registry Prog
  Client Mmvdump Ileave ProgProofs Events StartEvents BufFacts Tiling StartGood StartLayout StartFinal StartDone
  View Sections StartView RegInv Update World OpRuns RegFacts WorldInv Sync SyncView FloatFacts ValueFacts MetricFacts SyncLive Locks Conc ConcRuns ConcFacts MidSlot MidUpdate MidStep.
From stdpp Require Import relations.
Local Open Scope Z_scope.

Notation thread := (thr mcall mprog (outcome * option goval)).
Notation machine := (mach (O := option nat) (S := mem) (C := mcall) (P := mprog) (R := outcome * option goval)).

Section run.
  Context (w : world) (mps : list nat) (k : cfg) (wr ino : nat) (ad : list da) (am : list ma).
  Notation hm := (h_metrics (w_heap w)).

  Record shape (m : machine) (G : gmap nat metric) (pl : plan) (buf : list byte) : Prop := {
    j_heap : heap_ok (mkHeap (h_indoms (w_heap w)) G);
    j_reg : reg_ok (mkHeap (h_indoms (w_heap w)) G) (k_reg k);
    j_sync : sync (mkHeap (h_indoms (w_heap w)) G) (q_files (mc_mem m)) k wr ino pl ad am buf;
    j_ok : forall mp mm, q_metrics (mc_mem m) !! mp = Some mm -> metric_ok (mkHeap (h_indoms (w_heap w)) G) mm;
    j_stat : forall mp mm m0, mp ∈ mps -> q_metrics (mc_mem m) !! mp = Some mm -> hm !! mp = Some m0 -> stat k mp m0 mm;
    j_shown : forall mp, match q_metrics (mc_mem m) !! mp, G !! mp with
        | Some mm, Some g => g = mm \/ exists i d op mst p l m0, mc_thr m !! i = Some (mkThr d (Some (MUpdate mp op mst, p)) l) /\ hm !! mp = Some m0 /\ busy m0 wr p mm g
        | None, None => True
        | _, _ => False
        end;
    j_dom : forall mp, is_Some (hm !! mp) -> is_Some (q_metrics (mc_mem m) !! mp);
    j_todo : forall i th c, mc_thr m !! i = Some th -> c ∈ t_todo th -> call_ok w mps c;
    j_cur : forall i d c p l, mc_thr m !! i = Some (mkThr d (Some (c, p)) l) ->
      match c with
      | MUpdate mp op mst => mp ∈ mps /\ exists m0 mm g, hm !! mp = Some m0 /\ q_metrics (mc_mem m) !! mp = Some mm /\ G !! mp = Some g /\ mid m0 wr p mm g
      | MVal mp n => reader p
      end;
    j_lock : forall i d c p l, mc_thr m !! i = Some (mkThr d (Some (c, p)) l) ->
      if mc_rd c then exists X, mc_locks m (mc_obj c) = LkR X /\ i ∈ X else mc_locks m (mc_obj c) = LkW i }.

  Lemma two m G pl buf i d c p l i' d' c' p' l' : shape m G pl buf -> mc_thr m !! i = Some (mkThr d (Some (c, p)) l) ->
    mc_thr m !! i' = Some (mkThr d' (Some (c', p')) l') -> mc_rd c = false -> mc_obj c = mc_obj c' -> i = i'.
  Proof.
    intros SH H H' N E. pose proof (j_lock _ _ _ _ SH _ _ _ _ _ H) as L. pose proof (j_lock _ _ _ _ SH _ _ _ _ _ H') as L'. rewrite N in L. rewrite <- E, L in L'.
    destruct (mc_rd c'); [by destruct L' as (X & L' & _)|congruence].
  Qed.

  (** Entering a method. *)
  Lemma shape_enter s f ts G pl buf i d c l lk' : shape (mkMach s f ts) G pl buf -> ts !! i = Some (mkThr d None (c :: l)) ->
    (forall j d' c' p' l', ts !! j = Some (mkThr d' (Some (c', p')) l') -> mc_obj c' = mc_obj c -> mc_rd c' = true /\ mc_rd c = true) ->
    (if mc_rd c then exists X, f (mc_obj c) = LkR X /\ lk' = LkR ({[i]} ∪ X) else lk' = LkW i) ->
    shape (mkMach s (set_lock f (mc_obj c) lk') (<[i := mkThr d (Some (c, mc_enter (w_heap w) c)) l]> ts)) G pl buf.
  Proof.
    intros SH Hi Ho Hl. pose proof (lookup_lt_Some _ _ _ Hi) as Lt. pose proof SH as [A1 A2 A3 A4 A5 A6 AD A7 A8 A9]. cbn [mc_mem mc_thr mc_locks] in *. split; cbn [mc_mem mc_thr mc_locks]; auto.
    - intros mp. specialize (A6 mp). destruct (q_metrics s !! mp) as [mm|], (G !! mp) as [g|]; auto. destruct A6 as [A6|(i' & d' & op & mst & p & l' & m0 & H1 & H2 & H3)]; [by left|right].
      exists i', d', op, mst, p, l', m0. split; [|done]. rewrite list_lookup_insert_ne; [done|]. intros <-. congruence.
    - intros i' th c' H Hin. destruct (decide (i' = i)) as [->|N].
      + rewrite list_lookup_insert in H by done. injection H as <-. eapply A7; [exact Hi|]. cbn in *. by right.
      + rewrite list_lookup_insert_ne in H by done. eauto.
    - intros i' d' c' p' l' H. destruct (decide (i' = i)) as [->|N].
      + rewrite list_lookup_insert in H by done. injection H as <- <- <- <-. assert (call_ok w mps c) as Ok. { eapply A7; [exact Hi|]. left. }
        destruct c as [mp op mst|mp n]; [|apply reads_enter]. destruct Ok as (Hin & m0 & p & Hm & Hp & Ha & Hf). split; [done|].
        cbn [mc_enter]. rewrite Hm. cbn [mbind option_bind]. rewrite Hp. cbn [default]. change (default q_ok (Some p)) with p. destruct (AD mp) as (mm & Hmm); [by eexists|]. specialize (A6 mp). rewrite Hmm in A6.
        destruct (G !! mp) as [g|] eqn:Hg; [|done]. exists m0, mm, g. split_and!; auto. destruct A6 as [->|(i' & d' & op' & mst' & p' & l' & m1 & H1 & H2 & H3)].
        * left. split; [done|]. left. eapply wprog_prog; eauto.
        * exfalso. destruct (Ho _ _ _ _ _ H1 eq_refl) as [X _]. done.
      + rewrite list_lookup_insert_ne in H by done. exact (A8 _ _ _ _ _ H).
    - intros i' d' c' p' l' H. destruct (decide (i' = i)) as [->|N].
      + rewrite list_lookup_insert in H by done. injection H as <- <- <- <-. unfold set_lock. rewrite decide_True by done. destruct (mc_rd c); [|done]. destruct Hl as (X & _ & ->). exists ({[i]} ∪ X). split; [done|]. set_solver.
      + rewrite list_lookup_insert_ne in H by done. pose proof (A9 _ _ _ _ _ H) as L. unfold set_lock. destruct (decide (mc_obj c' = mc_obj c)) as [E|NE]; [|done].
        destruct (Ho _ _ _ _ _ H E) as [R1 R2]. rewrite R1 in L |- *. rewrite R2 in Hl. destruct Hl as (X & E1 & ->). destruct L as (X' & E2 & L). rewrite E, E1 in E2. injection E2 as <-. exists ({[i]} ∪ X). split; [done|]. set_solver.
  Qed.

  (** Leaving it. *)
  Lemma ret_idle m0 p r mm g : mc_ret p = Some r -> mid m0 wr p mm g -> g = mm.
  Proof.
    intros Hr [[E _]|(n & v & kk & c & off & u & _ & _ & _ & _ & _ & _ & _ & _ & P)]; [done|]. by destruct P.
  Qed.
  Lemma busy_mid m0 p mm g : busy m0 wr p mm g -> mid m0 wr p mm g.
  Proof. by right. Qed.
  Lemma shape_leave s f ts G pl buf i d c p l r lk' : shape (mkMach s f ts) G pl buf -> ts !! i = Some (mkThr d (Some (c, p)) l) -> mc_ret p = Some r ->
    (if mc_rd c then exists X, f (mc_obj c) = LkR X /\ lk' = LkR (X ∖ {[i]}) else lk' = LkR ∅) ->
    shape (mkMach s (set_lock f (mc_obj c) lk') (<[i := mkThr (d ++ [(c, r)]) None l]> ts)) G pl buf.
  Proof.
    intros SH Hi Hr Hl. pose proof (lookup_lt_Some _ _ _ Hi) as Lt. pose proof SH as [A1 A2 A3 A4 A5 A6 AD A7 A8 A9]. cbn [mc_mem mc_thr mc_locks] in *. split; cbn [mc_mem mc_thr mc_locks]; auto.
    - intros mp. specialize (A6 mp). destruct (q_metrics s !! mp) as [mm|], (G !! mp) as [g|]; auto. destruct A6 as [A6|(i' & d' & op & mst & p1 & l' & m0 & H1 & H2 & H3)]; [by left|].
      destruct (decide (i' = i)) as [->|N].
      + left. rewrite Hi in H1. injection H1 as -> -> -> ->. eapply ret_idle; [exact Hr|by apply busy_mid].
      + right. exists i', d', op, mst, p1, l', m0. split; [|done]. by rewrite list_lookup_insert_ne.
    - intros i' th c' H Hin. destruct (decide (i' = i)) as [->|N].
      + rewrite list_lookup_insert in H by done. injection H as <-. eapply A7; [exact Hi|]. exact Hin.
      + rewrite list_lookup_insert_ne in H by done. eauto.
    - intros i' d' c' p' l' H. destruct (decide (i' = i)) as [->|N]; [by rewrite list_lookup_insert in H by done|]. rewrite list_lookup_insert_ne in H by done. exact (A8 _ _ _ _ _ H).
    - intros i' d' c' p' l' H. destruct (decide (i' = i)) as [->|N]; [by rewrite list_lookup_insert in H by done|]. rewrite list_lookup_insert_ne in H by done.
      pose proof (A9 _ _ _ _ _ H) as L. unfold set_lock. destruct (decide (mc_obj c' = mc_obj c)) as [E|NE]; [|done]. pose proof (A9 _ _ _ _ _ Hi) as L0.
      destruct (mc_rd c) eqn:R; destruct (mc_rd c') eqn:R'.
      + destruct Hl as (X & E1 & ->), L as (X' & E2 & L). rewrite E, E1 in E2. injection E2 as <-. exists (X ∖ {[i]}). split; [done|]. set_solver.
      + destruct L0 as (X & E1 & _). rewrite E, E1 in L. done.
      + destruct L as (X' & E2 & L). rewrite E, L0 in E2. done.
      + rewrite E, L0 in L. congruence.
  Qed.

  (** One access of a body. *)
  Lemma shape_body s f ts G pl buf i d c p l p' s' : shape (mkMach s f ts) G pl buf -> ts !! i = Some (mkThr d (Some (c, p)) l) ->
    (match mc_obj c with Some mp => qstep mp p s p' s' | None => False end) ->
    exists G' pl' buf', shape (mkMach s' f (<[i := mkThr d (Some (c, p')) l]> ts)) G' pl' buf'.
  Proof.
    intros SH Hi Hst. pose proof (lookup_lt_Some _ _ _ Hi) as Lt. pose proof SH as [A1 A2 A3 A4 A5 A6 AD A7 A8 A9]. cbn [mc_mem mc_thr mc_locks] in *. pose proof (A8 _ _ _ _ _ Hi) as C.
    assert (forall th, <[i := mkThr d (Some (c, p')) l]> ts !! i = Some th -> th = mkThr d (Some (c, p')) l) as EI. { intros th H. rewrite list_lookup_insert in H by done. congruence. }
    assert (forall i' th c', <[i := mkThr d (Some (c, p')) l]> ts !! i' = Some th -> c' ∈ t_todo th -> call_ok w mps c') as B7.
    { intros i' th c' H Hin. destruct (decide (i' = i)) as [->|N]; [apply EI in H as ->; eapply A7; [exact Hi|exact Hin]|]. rewrite list_lookup_insert_ne in H by done. eauto. }
    assert (forall i' d' c' p1 l', <[i := mkThr d (Some (c, p')) l]> ts !! i' = Some (mkThr d' (Some (c', p1)) l') ->
      if mc_rd c' then exists X, f (mc_obj c') = LkR X /\ i' ∈ X else f (mc_obj c') = LkW i') as B9.
    { intros i' d' c' p1 l' H. destruct (decide (i' = i)) as [->|N]; [apply EI in H; injection H as -> -> -> ->; exact (A9 _ _ _ _ _ Hi)|]. rewrite list_lookup_insert_ne in H by done. exact (A9 _ _ _ _ _ H). }
    destruct c as [mp op mst|mp n]; cbn [mc_obj] in Hst.
    - destruct C as (Hin & m0 & mm & g & Hm0 & Hmm & Hg & M). set (hp := mkHeap (h_indoms (w_heap w)) G) in *.
      assert (snap k wr ino ad am mp m0 hp s mm g pl buf) as SN. { split; eauto. }
      destruct (mid_step _ _ _ _ _ _ _ _ _ _ _ _ _ _ _ _ SN M Hst) as (m' & g' & pl' & buf' & Em & [B1 B2 B3 B4 B5 B6 BS] & M').
      exists (<[mp := g']> G), pl', buf'. change (upd_heap hp mp g') with (mkHeap (h_indoms (w_heap w)) (<[mp := g']> G)) in *.
      split; cbn [mc_mem mc_thr mc_locks]; auto.
      + intros mp1 mm1 H. rewrite Em in H. apply lookup_insert_Some in H as [[<- <-]|[N H]]; [done|]. eapply metric_ok_ext; [|eapply A4; exact H]. auto.
      + intros mp1 mm1 m1 Hin1 H H1. rewrite Em in H. apply lookup_insert_Some in H as [[<- <-]|[N H]]; [congruence|]. eauto.
      + intros mp1. rewrite Em. destruct (decide (mp = mp1)) as [<-|N].
        * rewrite !lookup_insert. destruct M' as [[-> _]|B]; [by left|right]. exists i, d, op, mst, p', l, m0. split_and!; auto. by rewrite list_lookup_insert.
        * rewrite !lookup_insert_ne by done. specialize (A6 mp1). destruct (q_metrics s !! mp1) as [mm1|], (G !! mp1) as [g1|]; auto.
          destruct A6 as [A6|(i' & d' & op' & mst' & p1 & l' & m1 & H1 & H2 & H3)]; [by left|right]. exists i', d', op', mst', p1, l', m1. split; [|done].
          rewrite list_lookup_insert_ne; [done|]. intros <-. rewrite Hi in H1. injection H1 as H1. congruence.
      + intros mp1 H. rewrite Em. destruct (decide (mp = mp1)) as [<-|N]; [rewrite lookup_insert; by eexists|]. rewrite lookup_insert_ne by done. auto.
      + intros i' d' c' p1 l' H. destruct (decide (i' = i)) as [->|N].
        * apply EI in H. injection H as -> -> -> ->. split; [done|]. exists m0, m', g'. rewrite Em, !lookup_insert. auto.
        * rewrite list_lookup_insert_ne in H by done. pose proof (A8 _ _ _ _ _ H) as C'. destruct c' as [mp1 op1 mst1|mp1 n1]; [|done]. destruct C' as (Hin1 & m1 & mm1 & g1 & C1 & C2 & C3 & C4). split; [done|].
          assert (mp1 <> mp) as Nm. { intros ->. apply N. symmetry. eapply (two (mkMach s f ts)); [exact SH|exact Hi|exact H|done|done]. }
          exists m1, mm1, g1. rewrite Em, !lookup_insert_ne by done. auto.
    - assert (s' = s /\ reader p') as [-> R]. { unfold qstep in Hst. inversion C as [|n0 k0 Hk]; subst; cbn in Hst; [done|]. destruct (q_metrics s !! mp); [|done]. cbn in Hst. injection Hst as <- <-. auto. }
      exists G, pl, buf. split; cbn [mc_mem mc_thr mc_locks]; auto.
      + intros mp1. specialize (A6 mp1). destruct (q_metrics s !! mp1) as [mm1|], (G !! mp1) as [g1|]; auto.
        destruct A6 as [A6|(i' & d' & op' & mst' & p1 & l' & m1 & H1 & H2 & H3)]; [by left|right]. exists i', d', op', mst', p1, l', m1. split; [|done].
        rewrite list_lookup_insert_ne; [done|]. intros <-. rewrite Hi in H1. injection H1 as H1. congruence.
      + intros i' d' c' p1 l' H. destruct (decide (i' = i)) as [->|N]; [apply EI in H; by injection H as -> -> -> ->|]. rewrite list_lookup_insert_ne in H by done. exact (A8 _ _ _ _ _ H).
  Qed.

  Lemma shape_step m m' G pl buf : shape m G pl buf -> cstep (w_heap w) m m' -> exists G' pl' buf', shape m' G' pl' buf'.
  Proof.
    intros SH M. destruct M as [s f ts i d c l Hi Hr Hf|s f ts i d c l X Hi Hr Hf|s f ts i d c p l p' s' Hi Hs|s f ts i d c p l r Hi Hp Hr|s f ts i d c p l r X Hi Hp Hr Hf].
    - exists G, pl, buf. apply shape_enter; auto; [|by rewrite Hr]. intros j d' c' p' l' H E. pose proof (j_lock _ _ _ _ SH _ _ _ _ _ H) as L. cbn in L. rewrite E, Hf in L.
      destruct (mc_rd c'); [|done]. destruct L as (X & [= <-] & L). set_solver.
    - exists G, pl, buf. apply shape_enter; auto; [|rewrite Hr; eauto]. intros j d' c' p' l' H E. pose proof (j_lock _ _ _ _ SH _ _ _ _ _ H) as L. cbn in L. rewrite E, Hf in L.
      destruct (mc_rd c'); done.
    - eapply shape_body; eauto. by destruct (mc_obj c).
    - exists G, pl, buf. apply (shape_leave s f ts G pl buf i d c p l r); auto. by rewrite Hr.
    - exists G, pl, buf. apply (shape_leave s f ts G pl buf i d c p l r); auto. rewrite Hr. eauto.
  Qed.
  Lemma shape_steps m m' G pl buf : rtc (cstep (w_heap w)) m m' -> shape m G pl buf -> exists G' pl' buf', shape m' G' pl' buf'.
  Proof.
    intros H. revert G pl buf. induction H as [m|m1 m2 m3 M _ IH]; intros G pl buf SH; [eauto|]. destruct (shape_step _ _ _ _ _ SH M) as (G' & pl' & buf' & SH'). eauto.
  Qed.

  Lemma shape_start pl buf css : w_ok w -> reg_ok (w_heap w) (k_reg k) -> sync (w_heap w) (w_files w) k wr ino pl ad am buf ->
    (forall mp m, mp ∈ mps -> hm !! mp = Some m -> registered (k_reg k) mp \/ no_closures m) ->
    (forall l c, l ∈ css -> c ∈ l -> call_ok w mps c) -> shape (m_start (world_mem w) css) hm pl buf.
  Proof.
    intros W Hro Sy Hreg Hc. pose proof (wo_heap _ W) as Hh. assert (mkHeap (h_indoms (w_heap w)) hm = w_heap w) as E by (by destruct (w_heap w)).
    assert (forall i d c p l, ((fun l => mkThr [] None l : thread) <$> css) !! i <> Some (mkThr d (Some (c, p)) l)) as N.
    { intros i d c p l. rewrite list_lookup_fmap. by destruct (css !! i). }
    split; rewrite ?E; auto; unfold m_start; cbn [mc_mem mc_thr mc_locks world_mem q_metrics].
    - intros mp mm H. by apply (ho_metrics _ Hh) in H.
    - intros mp mm m0 Hin H H'. assert (m0 = mm) as -> by congruence. split_and!; auto. exact (Hreg _ _ Hin H).
    - intros mp. destruct (hm !! mp); [by left|done].
    - intros i th c H Hin. rewrite list_lookup_fmap in H. destruct (css !! i) as [l|] eqn:El; [|done]. injection H as <-. eapply Hc; [|exact Hin]. eapply elem_of_list_lookup_2; eauto.
    - intros i d c p l H. by apply N in H.
    - intros i d c p l H. by apply N in H.
  Qed.
End run.
