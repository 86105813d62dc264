(** Goroutines under reader/writer locks, one lock at a time: no deadlock. *)
From Verif Require Import Base Locks.
From stdpp Require Import relations.
Local Open Scope Z_scope.

Section live.
  Context {O S C P R : Type} `{EqDecision O}.
  Context (obj : C -> O) (rd : C -> bool) (enter : C -> P) (step : O -> P -> S -> P -> S -> Prop) (ret : P -> option R).
  Notation mach := (@mach O S C P R).
  Notation mstep := (mstep obj rd enter step ret).

  Definition in_call (ts : list (thr C P R)) (i : nat) (o : O) (b : bool) : Prop :=
    exists d c p l, ts !! i = Some (mkThr d (Some (c, p)) l) /\ obj c = o /\ rd c = b.
  (** Exactly the goroutines in a call hold its lock. *)
  Definition locked (m : mach) : Prop := forall o,
    match mc_locks m o with
    | LkW i => forall j b, in_call (mc_thr m) j o b <-> j = i /\ b = false
    | LkR X => forall j b, in_call (mc_thr m) j o b <-> j ∈ X /\ b = true
    end.

  Lemma locked_start s css : locked (m_start s css).
  Proof.
    intros o. cbn. intros j b. split.
    - intros (d & c & p & l & H & _). rewrite list_lookup_fmap in H. by destruct (css !! j).
    - intros [H _]. set_solver.
  Qed.
  Lemma in_call_insert ts i t j o b : (i < length ts)%nat -> in_call (<[i := t]> ts) j o b <->
    (if decide (j = i) then exists c p, t_cur t = Some (c, p) /\ obj c = o /\ rd c = b else in_call ts j o b).
  Proof.
    intros Lt. unfold in_call. case_decide as E.
    - subst j. rewrite list_lookup_insert by done. split.
      + intros (d & c & p & l & [= ->] & H). cbn. eauto.
      + intros (c & p & H & H2). destruct t as [d cur l]. cbn in H. subst cur. eauto 10.
    - by rewrite list_lookup_insert_ne.
  Qed.
  Lemma in_call_same ts i d c p l o b : ts !! i = Some (mkThr d (Some (c, p)) l) -> in_call ts i o b <-> obj c = o /\ rd c = b.
  Proof. intros H. unfold in_call. split; [intros (d' & c' & p' & l' & H1 & H2); rewrite H in H1; by simplify_eq|]. intros []. eauto 10. Qed.
  Lemma in_call_none ts i d l o b : ts !! i = Some (mkThr d None l) -> ~ in_call ts i o b.
  Proof. intros H (d' & c' & p' & l' & H1 & H2). congruence. Qed.

  Lemma locked_step m m' : mstep m m' -> locked m -> locked m'.
  Proof.
    intros M L. destruct M as [s f ts i d c l Hi Hr Hf|s f ts i d c l X Hi Hr Hf|s f ts i d c p l p' s' Hi Hs|s f ts i d c p l r Hi Hp Hr|s f ts i d c p l r X Hi Hp Hr Hf];
      intros o; specialize (L o); cbn in *; pose proof (lookup_lt_Some _ _ _ Hi) as Lt; unfold set_lock.
    - case_decide as E.
      + subst o. rewrite Hf in L. intros j b. rewrite in_call_insert by done. case_decide as Ej; cbn.
        * subst j. split; [intros (c' & p' & [= <- <-] & _ & <-); auto|]. intros [_ ->]. eauto.
        * rewrite L. set_solver.
      + assert (forall j b, in_call (<[i := mkThr d (Some (c, enter c)) l]> ts) j o b <-> in_call ts j o b) as K.
        { intros j b. rewrite in_call_insert by done. case_decide as Ej; [|done]. subst j. cbn. split; [intros (? & ? & [= <- <-] & ? & _); congruence|]. intros H. by apply (in_call_none _ _ _ _ _ _ Hi) in H. }
        destruct (f o); intros j b; rewrite K; apply L.
    - case_decide as E.
      + subst o. rewrite Hf in L. intros j b. rewrite in_call_insert by done. case_decide as Ej; cbn.
        * subst j. split; [intros (c' & p' & [= <- <-] & _ & <-); rewrite Hr; set_solver|]. intros [_ ->]. eauto.
        * rewrite L. set_solver.
      + assert (forall j b, in_call (<[i := mkThr d (Some (c, enter c)) l]> ts) j o b <-> in_call ts j o b) as K.
        { intros j b. rewrite in_call_insert by done. case_decide as Ej; [|done]. subst j. cbn. split; [intros (? & ? & [= <- <-] & ? & _); congruence|]. intros H. by apply (in_call_none _ _ _ _ _ _ Hi) in H. }
        destruct (f o); intros j b; rewrite K; apply L.
    - assert (forall j b, in_call (<[i := mkThr d (Some (c, p')) l]> ts) j o b <-> in_call ts j o b) as K.
      { intros j b. rewrite in_call_insert by done. case_decide as Ej; [|done]. subst j. rewrite (in_call_same _ _ _ _ _ _ _ _ Hi). cbn. split; [intros (? & ? & [= <- <-] & ?); done|]. eauto. }
      destruct (f o); intros j b; rewrite K; apply L.
    - assert (in_call ts i (obj c) false) as Hin by (exists d, c, p, l; auto).
      assert (forall j b, in_call (<[i := mkThr (d ++ [(c, r)]) None l]> ts) j o b <-> j <> i /\ in_call ts j o b) as K.
      { intros j b. rewrite in_call_insert by done. case_decide as Ej; [|tauto]. cbn. split; [intros (? & ? & ? & _); done|]. tauto. }
      case_decide as E.
      + subst o. intros j b. rewrite K. split; [|set_solver]. intros [N H]. destruct (f (obj c)) as [i'|X].
        * apply L in Hin, H. destruct Hin, H. congruence.
        * apply L in Hin. destruct Hin. done.
      + destruct (f o); intros j b; rewrite K; (split; [intros [_ H]; by apply L|]; intros H; split; [|by apply L]; intros ->; apply L in H; rewrite (in_call_same _ _ _ _ _ _ _ _ Hi) in H; destruct H; congruence).
    - assert (in_call ts i (obj c) true) as Hin by (exists d, c, p, l; auto).
      assert (forall j b, in_call (<[i := mkThr (d ++ [(c, r)]) None l]> ts) j o b <-> j <> i /\ in_call ts j o b) as K.
      { intros j b. rewrite in_call_insert by done. case_decide as Ej; [|tauto]. cbn. split; [intros (? & ? & ? & _); done|]. tauto. }
      case_decide as E.
      + subst o. rewrite Hf in L. intros j b. rewrite K, L. set_solver.
      + destruct (f o); intros j b; rewrite K; (split; [intros [_ H]; by apply L|]; intros H; split; [|by apply L]; intros ->; apply L in H; rewrite (in_call_same _ _ _ _ _ _ _ _ Hi) in H; destruct H; congruence).
  Qed.

  (** Unless all calls have returned some goroutine can go on, or one is inside a body
      that cannot: nobody waits for a lock in vain. *)
  Theorem progress s css m : (forall o p s, (exists p' s', step o p s p' s') \/ forall p' s', ~ step o p s p' s') -> rtc mstep (m_start s css) m ->
    m_done m \/ (exists m', mstep m m') \/
    exists i d c p l, mc_thr m !! i = Some (mkThr d (Some (c, p)) l) /\ ret p = None /\ forall p' s', ~ step (obj c) p (mc_mem m) p' s'.
  Proof.
    intros Dec H. assert (locked m) as L.
    { pose proof (locked_start s css) as L. remember (m_start s css) as m0 eqn:E. clear E. induction H; [done|]. eauto using locked_step. }
    clear H. destruct m as [mm f ts]. cbn.
    destruct (decide (Exists (fun t => is_Some (t_cur t)) ts)) as [E|E].
    - apply Exists_exists in E as (t & Ht & Hc). apply elem_of_list_lookup in Ht as [i Hi]. destruct t as [d [[c p]|] l]; [|by destruct Hc].
      destruct (ret p) as [r|] eqn:Er.
      + right. left. assert (in_call ts i (obj c) (rd c)) as Hin by (exists d, c, p, l; auto). destruct (rd c) eqn:Hr.
        * specialize (L (obj c)). cbn in L. destruct (f (obj c)) as [i'|X] eqn:Ef; [apply L in Hin; by destruct Hin|]. eexists. eapply ms_runlock; eauto.
        * eexists. eapply ms_unlock; eauto.
      + right. destruct (Dec (obj c) p mm) as [(p' & s' & H)|H]; [left; eexists; eapply ms_body; eauto|]. right. eauto 10.
    - assert (forall i t, ts !! i = Some t -> t_cur t = None) as N.
      { intros i t Hi. destruct (t_cur t) eqn:Ec; [|done]. exfalso. apply E, Exists_exists. exists t. split; [by eapply elem_of_list_lookup_2|]. rewrite Ec. eauto. }
      assert (forall o, f o = LkR ∅) as F.
      { intros o. specialize (L o). cbn in L. destruct (f o) as [i|X].
        - destruct (proj2 (L i false) (conj eq_refl eq_refl)) as (d & c & p & l & H & _). apply N in H. done.
        - f_equal. apply leibniz_equiv. apply elem_of_equiv_empty. intros j Hj. destruct (proj2 (L j true) (conj Hj eq_refl)) as (d & c & p & l & H & _). apply N in H. done. }
      destruct (decide (Exists (fun t => t_todo t <> []) ts)) as [E2|E2].
      + apply Exists_exists in E2 as (t & Ht & Hc). apply elem_of_list_lookup in Ht as [i Hi]. pose proof (N _ _ Hi) as Hn. destruct t as [d cur [|c l]]; [done|]. cbn in Hn. subst cur.
        right. left. destruct (rd c) eqn:Hr; eexists; [eapply ms_rlock; eauto|eapply ms_lock; eauto].
      + left. intros i t Hi. cbn in Hi. split; [eauto|]. destruct (t_todo t) eqn:Et; [done|]. exfalso. apply E2, Exists_exists. exists t. split; [by eapply elem_of_list_lookup_2|]. by rewrite Et.
  Qed.

  (** ** Termination *)
  (** [snext p' p]: a step leads from [p] to [p']. *)
  Definition snext (o : O) (p' p : P) : Prop := exists s s', step o p s p' s'.
  Context (bodies : forall o p, Acc (snext o) p).
  Definition tmeas (t : thr C P R) : list C * option (C * P) := (t_todo t, t_cur t).
  Inductive tless : list C * option (C * P) -> list C * option (C * P) -> Prop :=
  | tl_enter c l : tless (l, Some (c, enter c)) (c :: l, None)
  | tl_body c p p' l : snext (obj c) p' p -> tless (l, Some (c, p')) (l, Some (c, p))
  | tl_leave c p l : tless (l, None) (l, Some (c, p)).
  Lemma tless_wf x : Acc tless x.
  Proof using bodies.
    assert (forall l, Acc tless (l, None) /\ forall c p, Acc tless (l, Some (c, p))) as H.
    { intros l. induction l as [|c0 l IH].
      - assert (Acc tless ([], None)) as A0 by (constructor; intros y H; inversion H). split; [done|]. intros c p. induction (bodies (obj c) p) as [p _ IHp].
        constructor. intros y H. inversion H; subst; auto.
      - destruct IH as [_ IH]. assert (Acc tless (c0 :: l, None)) as A0 by (constructor; intros y H; inversion H; subst; auto). split; [done|].
        intros c p. induction (bodies (obj c) p) as [p _ IHp]. constructor. intros y H. inversion H; subst; auto. }
    destruct x as [l [[c p]|]]; apply H.
  Qed.
  (** One entry of a list decreases. *)
  Definition lless (ys xs : list (list C * option (C * P))) : Prop := exists i x y, xs !! i = Some x /\ tless y x /\ ys = <[i := y]> xs.
  Lemma lless_wf xs : Acc lless xs.
  Proof using bodies.
    induction xs as [|x xs IH]; [constructor; intros ys (i & x & y & H & _); done|].
    revert xs IH. induction (tless_wf x) as [x _ IHx]. intros xs IH. induction IH as [xs Hxs IH].
    constructor. intros ys ([|i] & x0 & y & H1 & H2 & ->); cbn in *.
    - injection H1 as <-. apply IHx; [done|]. by constructor.
    - apply IH. exists i, x0, y. auto.
  Qed.
  Lemma mstep_less m m' : mstep m m' -> lless (tmeas <$> mc_thr m') (tmeas <$> mc_thr m).
  Proof.
    intros M. destruct M as [s f ts i d c l Hi Hr Hf|s f ts i d c l X Hi Hr Hf|s f ts i d c p l p' s' Hi Hs|s f ts i d c p l r Hi Hp Hr|s f ts i d c p l r X Hi Hp Hr Hf]; cbn.
    all: exists i; rewrite list_lookup_fmap, Hi; cbn; rewrite list_fmap_insert; do 2 eexists; (split; [done|]); (split; [|done]); unfold tmeas; cbn; constructor.
    exists s, s'. done.
  Qed.
  (** No execution is infinite. *)
  Theorem terminates m : Acc (flip mstep) m.
  Proof using bodies.
    remember (tmeas <$> mc_thr m) as x eqn:E. revert m E. induction (lless_wf x) as [x _ IH]. intros m ->. constructor. intros m' H. eapply IH; [|done]. by apply mstep_less.
  Qed.
  (** So, if bodies do not get stuck, every execution can be continued until all calls
      have returned. *)
  Theorem completes s css m : (forall o p s, (exists p' s', step o p s p' s') \/ forall p' s', ~ step o p s p' s') -> rtc mstep (m_start s css) m ->
    (forall m', rtc mstep (m_start s css) m' -> forall i d c p l, mc_thr m' !! i = Some (mkThr d (Some (c, p)) l) -> ret p = None -> exists p' s', step (obj c) p (mc_mem m') p' s') ->
    exists m', rtc mstep m m' /\ m_done m'.
  Proof using bodies.
    intros Dec H NS. induction (terminates m) as [m _ IH]. destruct (progress s css m Dec H) as [D|[[m' M]|(i & d & c & p & l & H1 & H2 & H3)]].
    - exists m. split; [apply rtc_refl|done].
    - destruct (IH m' M) as (m2 & H2 & D2); [by eapply rtc_r|]. exists m2. split; [by eapply rtc_l|done].
    - exfalso. destruct (NS m H i d c p l H1 H2) as (p' & s' & H4). by eapply H3.
  Qed.
End live.
