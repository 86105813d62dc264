(** Concurrent registrations always return, whatever the names. *)
From Verif Require Import Base BaseFacts GoVal MetricType Indom Metrics Registry Locks LocksLive RegConc RegConcFacts.
From stdpp Require Import relations.
Local Open Scope Z_scope.

(** The lock a goroutine holds at a point of its program; a goroutine never asks for a
    lock while it holds one. *)
Fixpoint holds (p : rprog) : hold :=
  match p with
  | GRet _ | GLock _ _ | GRLock _ _ => HN
  | GUnlock x _ => HW x
  | GRUnlock x _ => HR x
  | GMapped k | GHasM _ k | GHasD _ k | GV2 k => holds (k false)
  | GPutM _ _ k | GPutD _ _ k | GAdd _ _ k | GSet _ _ k | GSetV2 k => holds k
  end.
Fixpoint tidy (p : rprog) : Prop :=
  match p with
  | GRet _ => True
  | GLock x k => holds k = HW x /\ tidy k
  | GRLock x k => holds k = HR x /\ tidy k
  | GUnlock _ k | GRUnlock _ k => holds k = HN /\ tidy k
  | GMapped k | GHasM _ k | GHasD _ k | GV2 k => forall b, holds (k b) = holds (k false) /\ tidy (k b)
  | GPutM _ _ k | GPutD _ _ k | GAdd _ _ k | GSet _ _ k | GSetV2 k => tidy k
  end.

Lemma holds_text s k : holds (g_text s k) = holds k.
Proof. unfold g_text. by destruct (nonempty s). Qed.
Lemma tidy_text s k : tidy k -> tidy (g_text s k).
Proof. unfold g_text. by destruct (nonempty s). Qed.
Lemma holds_v2 b k : holds (g_v2 b k) = holds k.
Proof. unfold g_v2. by destruct b. Qed.
Lemma tidy_v2 b k : tidy k -> tidy (g_v2 b k).
Proof. intros H. unfold g_v2. cbn. intros []; destruct b; cbn; auto. Qed.
Lemma tidy_has_indom n k : (forall b, holds (k b) = HN /\ tidy (k b)) -> tidy (g_has_indom n k).
Proof. intros H. unfold g_has_indom. cbn [tidy holds]. split; [done|]. intros b. split; [done|]. apply H. Qed.
Lemma tidy_has_metric n k : (forall b, holds (k b) = HN /\ tidy (k b)) -> tidy (g_has_metric n k).
Proof. intros H. unfold g_has_metric. cbn [tidy holds]. split; [done|]. intros b. split; [done|]. apply H. Qed.
Lemma tidy_add_raw mp m dom : tidy (g_add_raw mp m dom).
Proof.
  unfold g_add_raw. cbn [tidy holds]. rewrite holds_v2. cbn [holds].
  assert (forall a b, holds (g_text a (g_text b (GUnlock KMet (GRet ROk)))) = HW KMet /\ tidy (g_text a (g_text b (GUnlock KMet (GRet ROk))))) as K.
  { intros a b. rewrite !holds_text. split; [done|]. apply tidy_text, tidy_text. done. }
  destruct (K (md_short (m_desc m)) (md_long (m_desc m))) as [K1 K2].
  split; [by destruct (_ =? _)|]. apply tidy_v2. cbn [tidy]. by destruct (_ =? _).
Qed.
Lemma tidy_add_indom ip d kok kerr : holds kok = HN -> holds kerr = HN -> tidy kok -> tidy kerr -> tidy (g_add_indom ip d kok kerr).
Proof.
  intros H1 H2 H3 H4. unfold g_add_indom. apply tidy_has_indom. intros []; [done|]. cbn [tidy holds]. rewrite holds_v2, !holds_text. cbn [holds]. split_and!; auto. intros b.
  destruct b; cbn [tidy holds]; rewrite ?holds_v2, ?holds_text; cbn [holds]; split_and!; auto. apply tidy_v2, tidy_text, tidy_text. done.
Qed.
Lemma tidy_body hp c : tidy (g_body hp c) /\ holds (g_body hp c) = HN.
Proof.
  destruct c as [mp|ip]; cbn [g_body].
  - destruct (h_metrics hp !! mp) as [m|]; [|done]. split; [|done]. unfold g_add_metric. cbn [tidy]. intros []; [done|]. split; [done|]. apply tidy_has_metric. intros []; [done|].
    destruct (m_indom m) as [ip|]; [|split; [done|apply tidy_add_raw]]. destruct (h_indoms hp !! ip) as [d|]; [|done]. split; [done|]. apply tidy_has_indom. intros []; [split; [done|apply tidy_add_raw]|].
    split; [done|]. apply tidy_add_indom; try done; apply tidy_add_raw.
  - destruct (h_indoms hp !! ip) as [d|]; [|done]. split; [|done]. by apply tidy_add_indom.
Qed.

Definition held (ts : list (thr rcall rprog outcome)) (i : nat) : hold :=
  match ts !! i with Some (mkThr _ (Some (_, p)) _) => holds p | _ => HN end.
Record locked_by (m : rmach) : Prop := {
  lb_tidy : forall i d c p l, rm_thr m !! i = Some (mkThr d (Some (c, p)) l) -> tidy p;
  lb_w : forall i x, held (rm_thr m) i = HW x <-> rm_locks m x = LkW i;
  lb_r : forall i x, held (rm_thr m) i = HR x <-> exists X, rm_locks m x = LkR X /\ i ∈ X }.

Lemma held_insert ts i j t : ts !! i <> None -> held (<[i := t]> ts) j = if decide (i = j) then match t_cur t with Some (_, p) => holds p | None => HN end else held ts j.
Proof.
  intros H. unfold held. case_decide as E.
  - subst j. rewrite list_lookup_insert by by apply lookup_lt_is_Some_1, not_eq_None_Some. by destruct t as [? [[]|] ?].
  - by rewrite list_lookup_insert_ne.
Qed.
(** A step that leaves the lock held by its goroutine unchanged. *)
Lemma locked_same r r' f ts i d c p l d' cur' l' : locked_by (mkRM r f ts) -> ts !! i = Some (mkThr d c l) ->
  held ts i = match cur' with Some (_, p) => holds p | None => HN end -> (forall c p, cur' = Some (c, p) -> tidy p) -> p = mkThr d' cur' l' -> locked_by (mkRM r' f (<[i := p]> ts)).
Proof.
  intros [T Lw Lr] Hi Hh Ht ->. assert (ts !! i <> None) as Hne by congruence. assert (forall j, held (<[i := mkThr d' cur' l']> ts) j = held ts j) as E.
  { intros j. rewrite held_insert by done. case_decide as Ej; [subst j; by rewrite Hh|done]. }
  split; cbn [rm_thr rm_locks] in *.
  - intros j d1 c1 p1 l1 Hj. destruct (decide (i = j)) as [<-|N]; [|rewrite list_lookup_insert_ne in Hj by done; eauto].
    rewrite list_lookup_insert in Hj by by apply lookup_lt_Some in Hi. injection Hj as -> -> ->. eauto.
  - intros j x. rewrite E. apply Lw.
  - intros j x. rewrite E. apply Lr.
Qed.
Lemma held_at ts i d c p l : ts !! i = Some (mkThr d (Some (c, p)) l) -> held ts i = holds p.
Proof. unfold held. by intros ->. Qed.

Lemma locked_by_step hp m m' : rstep hp m m' -> locked_by m -> locked_by m'.
Proof.
  intros M L. destruct M as [r f ts i d c l Hi|r f ts i d c p l p' r' f' Hi Hs|r f ts i d c o l Hi].
  - eapply (locked_same r r f ts i); [exact L|exact Hi| | |reflexivity].
    + unfold held. rewrite Hi. cbn. symmetry. apply tidy_body.
    + intros c0 p0 [= <- <-]. apply tidy_body.
  - pose proof (lb_tidy _ L _ _ _ _ _ Hi) as T. pose proof (held_at _ _ _ _ _ _ Hi) as Hh.
    assert (forall p' r', holds p' = holds p -> tidy p' -> locked_by (mkRM r' f (<[i := mkThr d (Some (c, p')) l]> ts))) as Same.
    { intros q r1 E Tq. eapply (locked_same r r1 f ts i); [exact L|exact Hi| | |reflexivity]; [by rewrite Hh, E|by intros ? ? [= <- <-]]. }
    assert (ts !! i <> None) as Hne by congruence. pose proof (lookup_lt_Some _ _ _ Hi) as Lt.
    destruct p as [o|x k|x k|x k|x k|k|n k|n k|n mp k|n ip k|cn z k|cn v k|k|k]; cbn [gnext holds tidy] in *.
    + done.
    + destruct (f x) as [|X] eqn:Ef; [done|]. destruct (decide (X = ∅)) as [->|]; [|done]. injection Hs as <- <- <-. destruct T as [T1 T2], L as [LT Lw Lr]. cbn [rm_thr rm_locks] in *.
      assert (forall j, held (<[i := mkThr d (Some (c, k)) l]> ts) j = if decide (i = j) then HW x else held ts j) as E by (intros j; rewrite held_insert by done; cbn; by rewrite T1).
      split; cbn [rm_thr rm_locks].
      * intros j d1 c1 p1 l1 Hj. destruct (decide (i = j)) as [<-|N]; [|rewrite list_lookup_insert_ne in Hj by done; eauto]. rewrite list_lookup_insert in Hj by done. by injection Hj as <- <- <- <-.
      * intros j y. rewrite E. destruct (decide (y = x)) as [->|Ny].
        -- rewrite set_lock_eq. case_decide; [subst j; done|]. split; [|congruence]. intros H1. apply Lw in H1. congruence.
        -- rewrite set_lock_ne by done. case_decide; [subst j|apply Lw]. split; [congruence|]. intros H1. apply Lw in H1. congruence.
      * intros j y. rewrite E. destruct (decide (y = x)) as [->|Ny].
        -- rewrite set_lock_eq. split; [|intros (? & ? & _); done]. case_decide; [done|]. intros H1. apply Lr in H1 as (X & H1 & H2). rewrite Ef in H1. injection H1 as <-. by apply not_elem_of_empty in H2.
        -- rewrite set_lock_ne by done. case_decide; [subst j|apply Lr]. split; [done|]. intros H1. apply Lr in H1. congruence.
    + injection Hs as <- <- <-. destruct T as [T1 T2], L as [LT Lw Lr]. cbn [rm_thr rm_locks] in *. pose proof (proj1 (Lw _ _) Hh) as Ef.
      assert (forall j, held (<[i := mkThr d (Some (c, k)) l]> ts) j = if decide (i = j) then HN else held ts j) as E by (intros j; rewrite held_insert by done; cbn; by rewrite T1).
      split; cbn [rm_thr rm_locks].
      * intros j d1 c1 p1 l1 Hj. destruct (decide (i = j)) as [<-|N]; [|rewrite list_lookup_insert_ne in Hj by done; eauto]. rewrite list_lookup_insert in Hj by done. by injection Hj as <- <- <- <-.
      * intros j y. rewrite E. destruct (decide (y = x)) as [->|Ny].
        -- rewrite set_lock_eq. split; [|done]. case_decide; [done|]. intros H1. apply Lw in H1. congruence.
        -- rewrite set_lock_ne by done. case_decide; [subst j|apply Lw]. split; [done|]. intros H1. apply Lw in H1. congruence.
      * intros j y. rewrite E. destruct (decide (y = x)) as [->|Ny].
        -- rewrite set_lock_eq. split; [|intros (X & [= <-] & H2); by apply not_elem_of_empty in H2]. case_decide; [done|]. intros H1. apply Lr in H1 as (X & H1 & _). congruence.
        -- rewrite set_lock_ne by done. case_decide; [subst j|apply Lr]. split; [done|]. intros H1. apply Lr in H1. congruence.
    + destruct (f x) as [|X] eqn:Ef; [done|]. injection Hs as <- <- <-. destruct T as [T1 T2], L as [LT Lw Lr]. cbn [rm_thr rm_locks] in *.
      assert (forall j, held (<[i := mkThr d (Some (c, k)) l]> ts) j = if decide (i = j) then HR x else held ts j) as E by (intros j; rewrite held_insert by done; cbn; by rewrite T1).
      split; cbn [rm_thr rm_locks].
      * intros j d1 c1 p1 l1 Hj. destruct (decide (i = j)) as [<-|N]; [|rewrite list_lookup_insert_ne in Hj by done; eauto]. rewrite list_lookup_insert in Hj by done. by injection Hj as <- <- <- <-.
      * intros j y. rewrite E. destruct (decide (y = x)) as [->|Ny].
        -- rewrite set_lock_eq. split; [|done]. case_decide; [done|]. intros H1. apply Lw in H1. congruence.
        -- rewrite set_lock_ne by done. case_decide; [subst j|apply Lw]. split; [done|]. intros H1. apply Lw in H1. congruence.
      * intros j y. rewrite E. destruct (decide (y = x)) as [->|Ny].
        -- rewrite set_lock_eq. case_decide as Ej; [subst j; split; [|done]; intros _; eexists; split; [done|set_solver]|]. rewrite Lr, Ef. split; intros (Y & [= <-] & H2); eexists; (split; [done|set_solver]).
        -- rewrite set_lock_ne by done. case_decide; [subst j|apply Lr]. split; [congruence|]. intros H1. apply Lr in H1. congruence.
    + destruct (f x) as [|X] eqn:Ef; [done|]. injection Hs as <- <- <-. destruct T as [T1 T2], L as [LT Lw Lr]. cbn [rm_thr rm_locks] in *.
      assert (forall j, held (<[i := mkThr d (Some (c, k)) l]> ts) j = if decide (i = j) then HN else held ts j) as E by (intros j; rewrite held_insert by done; cbn; by rewrite T1).
      split; cbn [rm_thr rm_locks].
      * intros j d1 c1 p1 l1 Hj. destruct (decide (i = j)) as [<-|N]; [|rewrite list_lookup_insert_ne in Hj by done; eauto]. rewrite list_lookup_insert in Hj by done. by injection Hj as <- <- <- <-.
      * intros j y. rewrite E. destruct (decide (y = x)) as [->|Ny].
        -- rewrite set_lock_eq. split; [|done]. case_decide; [done|]. intros H1. apply Lw in H1. congruence.
        -- rewrite set_lock_ne by done. case_decide; [subst j|apply Lw]. split; [done|]. intros H1. apply Lw in H1. congruence.
      * intros j y. rewrite E. destruct (decide (y = x)) as [->|Ny].
        -- rewrite set_lock_eq. case_decide as Ej; [subst j; split; [done|]; intros (Y & [= <-] & H2); set_solver|]. rewrite Lr, Ef. split; intros (Y & [= <-] & H2); eexists; (split; [done|set_solver]).
        -- rewrite set_lock_ne by done. case_decide; [subst j|apply Lr]. split; [done|]. intros H1. apply Lr in H1. congruence.
    + injection Hs as <- <- <-. by apply Same; apply T.
    + injection Hs as <- <- <-. by apply Same; apply T.
    + injection Hs as <- <- <-. by apply Same; apply T.
    + injection Hs as <- <- <-. by apply Same.
    + injection Hs as <- <- <-. by apply Same.
    + injection Hs as <- <- <-. by apply Same.
    + injection Hs as <- <- <-. by apply Same.
    + injection Hs as <- <- <-. by apply Same; apply T.
    + injection Hs as <- <- <-. by apply Same.
  - eapply (locked_same r r f ts i); [exact L|exact Hi| | |reflexivity]; [|done]. by apply held_at in Hi.
Qed.
Lemma locked_by_start r css : locked_by (rm_start r css).
Proof.
  assert (forall i, held (rm_thr (rm_start r css)) i = HN) as E.
  { intros i. unfold held. cbn. rewrite list_lookup_fmap. by destruct (css !! i). }
  split.
  - intros i d c p l. cbn. rewrite list_lookup_fmap. by destruct (css !! i).
  - intros i x. rewrite E. done.
  - intros i x. rewrite E. split; [done|]. intros (X & [= <-] & H). by apply not_elem_of_empty in H.
Qed.

(** A goroutine that holds a lock can go on. *)
Lemma holder_steps p i r f : holds p <> HN -> (forall x, holds p = HR x -> exists X, f x = LkR X) -> exists y, gnext i p r f = Some y.
Proof.
  intros H Hr. destruct p; cbn [holds gnext] in *; eauto; try done. destruct (Hr x eq_refl) as [X ->]. eauto.
Qed.
Lemma holder_thread ts i : held ts i <> HN -> exists d c p l, ts !! i = Some (mkThr d (Some (c, p)) l) /\ holds p = held ts i.
Proof. unfold held. intros H. destruct (ts !! i) as [[d [[c p]|] l]|]; [eauto 10|done|done]. Qed.
Lemma registration_progress hp m : locked_by m -> rm_done m \/ exists m', rstep hp m m'.
Proof.
  intros [LT Lw Lr]. destruct m as [r f ts]. cbn [rm_thr rm_locks] in *.
  assert (forall i, held ts i <> HN -> exists m', rstep hp (mkRM r f ts) m') as Holder.
  { intros i H. destruct (holder_thread _ _ H) as (d & c & p & l & Hi & E). destruct (holder_steps p i r f) as [[[p' r'] f'] Hs]; [by rewrite E| |eexists; by eapply rs_step].
    intros x Hx. rewrite E in Hx. apply Lr in Hx as (X & Hx & _). eauto. }
  destruct (decide (Exists (fun t => is_Some (t_cur t) \/ t_todo t <> []) ts)) as [E|E].
  - right. apply Exists_exists in E as (t & Ht & Hc). apply elem_of_list_lookup in Ht as [i Hi]. destruct t as [d [[c p]|] l].
    + destruct (gnext i p r f) as [[[p' r'] f']|] eqn:Hs; [eexists; by eapply rs_step|]. destruct p as [o|x k|x k|x k|x k|k|n k|n k|n mp k|n ip k|cn z k|cn v k|k|k]; try done; cbn in Hs.
      * eexists. by eapply rs_ret.
      * destruct (f x) as [j|X] eqn:Ef; [apply (Holder j); rewrite (proj2 (Lw j x) Ef); done|]. destruct (decide (X = ∅)) as [|Ne]; [done|]. apply set_choose_L in Ne as [j Hj].
        apply (Holder j). rewrite (proj2 (Lr j x)); [done|]. eauto.
      * destruct (f x) as [j|X] eqn:Ef; [|done]. apply (Holder j); rewrite (proj2 (Lw j x) Ef); done.
      * destruct (f x) as [j|X] eqn:Ef; [|done]. apply (Holder j); rewrite (proj2 (Lw j x) Ef); done.
    + destruct l as [|c l]; [by destruct Hc as [[]|]|]. eexists. by eapply rs_call.
  - left. intros i t Hi. cbn in Hi. destruct (t_cur t) eqn:Ec; [|destruct (t_todo t) eqn:Et; [done|]]; (exfalso; apply E, Exists_exists; exists t; split; [by eapply elem_of_list_lookup_2|]); [left; rewrite Ec; eauto|right; by rewrite Et].
Qed.

Definition any_step (_ : unit) (p : rprog) (s : registry * (rlk -> lk)) (p' : rprog) (s' : registry * (rlk -> lk)) : Prop := exists i, gnext i p s.1 s.2 = Some (p', s'.1, s'.2).
Lemma rprog_finite p : Acc (snext any_step tt) p.
Proof.
  induction p as [o|x k IH|x k IH|x k IH|x k IH|k IH|n k IH|n k IH|n mp k IH|n ip k IH|cn z k IH|cn v k IH|k IH|k IH]; constructor; intros y ([r f] & [r' f'] & i & H); cbn in H.
  all: try (injection H as <- <- <-; auto; fail).
  - done.
  - destruct (f x); [done|]. destruct (decide _); [|done]. by injection H as <- <- <-.
  - destruct (f x); [done|]. by injection H as <- <- <-.
  - destruct (f x); [done|]. by injection H as <- <- <-.
  - injection H as <- <- <-. constructor. intros y ([r1 f1] & [r2 f2] & j & H). cbn in H. by injection H as <- <- <-.
Qed.
Lemma registration_finite hp m : Acc (flip (rstep hp)) m.
Proof.
  remember (tmeas <$> rm_thr m) as x eqn:E. revert m E.
  induction (lless_wf (fun _ => tt) (g_body hp) any_step (fun o p => match o with tt => rprog_finite p end) x) as [x _ IH]. intros m ->. constructor. intros m' H. eapply IH; [|done].
  destruct H as [r f ts i d c l Hi|r f ts i d c p l p' r' f' Hi Hs|r f ts i d c o l Hi]; cbn;
    exists i; rewrite list_lookup_fmap, Hi; cbn; rewrite list_fmap_insert; do 2 eexists; (split; [done|]); (split; [|done]); unfold tmeas; cbn; constructor.
  exists (r, f), (r', f'), i. done.
Qed.
Theorem registration_completes hp r css m : rtc (rstep hp) (rm_start r css) m -> (exists m', rtc (rstep hp) m m' /\ rm_done m') /\ Acc (flip (rstep hp)) m.
Proof.
  intros H. split; [|apply registration_finite]. assert (locked_by m) as L.
  { pose proof (locked_by_start r css) as L. remember (rm_start r css) as m0 eqn:E. clear E. induction H; [done|]. eauto using locked_by_step. }
  clear H. induction (registration_finite hp m) as [m _ IH]. destruct (registration_progress hp m L) as [D|[m' M]]; [exists m; split; [apply rtc_refl|done]|].
  destruct (IH m' M) as (m2 & H2 & D2); [by eapply locked_by_step|]. exists m2. split; [by eapply rtc_l|done].
Qed.

(** Executable runs are runs. *)
Lemma rexec1_step hp i m m' : rexec1 hp i m = Some m' -> rstep hp m m'.
Proof.
  destruct m as [r f ts]. unfold rexec1. cbn [rm_thr rm_reg rm_locks]. destruct (ts !! i) as [[d [[c p]|] l]|] eqn:Hi; [| |done].
  - destruct p; try (destruct (gnext _ _ _ _) as [[[p' r'] f']|] eqn:Hs; [|done]; intros [= <-]; by eapply rs_step). intros [= <-]. by eapply rs_ret.
  - destruct l as [|c l]; [done|]. intros [= <-]. by eapply rs_call.
Qed.
Lemma rexec_steps hp sched m : rtc (rstep hp) m (rexec hp sched m).
Proof.
  revert m. induction sched as [|i l IH]; intros m; cbn; [apply rtc_refl|]. destruct (rexec1 hp i m) as [m'|] eqn:E; cbn; [|apply IH].
  eapply rtc_l; [by eapply rexec1_step|apply IH].
Qed.
Definition rall_done (m : rmach) : bool := forallb (fun t => match t_cur t, t_todo t with None, [] => true | _, _ => false end) (rm_thr m).
Lemma rall_done_sound m : rall_done m = true -> rm_done m.
Proof.
  unfold rall_done, rm_done. rewrite forallb_forall. intros H i t Hi. specialize (H t). rewrite <- elem_of_list_In in H. specialize (H (elem_of_list_lookup_2 _ _ _ Hi)).
  by destruct (t_cur t), (t_todo t).
Qed.
