(** Methods that run under the lock of their object, and touch nothing of other
    objects, behave as if called one after the other. *)
From Verif Require Import Base Locks.
From stdpp Require Import relations.
Local Open Scope Z_scope.

(** The calls of a sequence, goroutine by goroutine. *)
Lemma calls_of_perm {C R : Type} (h : list (nat * C * R)) n : (forall x, x ∈ h -> (x.1.1 < n)%nat) ->
  h.*1.*2 ≡ₚ concat ((fun i => (calls_of i h).*1) <$> seq 0 n).
Proof.
  induction h as [|[[i c] r] h IH]; intros H.
  - cbn. clear. generalize 0%nat. induction n as [|n IH]; intros k; [done|]. cbn. apply IH.
  - assert (calls_of i ((i, c, r) :: h) = (c, r) :: calls_of i h) as Ei by (unfold calls_of; cbn; by rewrite decide_True).
    cbn [fmap list_fmap fst snd]. rewrite IH by (intros; apply H; by right). pose proof (H _ ltac:(left)) as Hi. cbn in Hi. clear H IH.
    replace n with (i + S (n - i - 1))%nat by lia. rewrite seq_app. cbn [seq]. rewrite !fmap_app, !concat_app. cbn [fmap list_fmap concat].
    assert (forall k m, (forall j, j ∈ seq k m -> j <> i) -> (fun i0 => (calls_of i0 ((i, c, r) :: h)).*1) <$> seq k m = (fun i0 => (calls_of i0 h).*1) <$> seq k m) as E.
    { intros k m N. apply list_fmap_ext. intros j x Hx. unfold calls_of. cbn. rewrite decide_False; [done|]. apply elem_of_list_lookup_2 in Hx. apply N in Hx. congruence. }
    rewrite !E; [|intros j Hj; apply elem_of_seq in Hj; lia..]. change (0 + i)%nat with i. rewrite Ei. cbn [fmap list_fmap fst].
    by rewrite <- app_comm_cons, Permutation_middle.
Qed.

Section lin.
  Context {O S C P R : Type} `{EqDecision O}.
  Context (obj : C -> O) (rd : C -> bool) (enter : C -> P) (step : O -> P -> S -> P -> S -> Prop) (ret : P -> option R).
  (** [agree o s t]: the memory of object [o] is the same in [s] and [t]; [fit o p]: body
      [p] only touches [o]; [good]: an invariant of the memory; [ok]: which calls. *)
  Context (agree : O -> S -> S -> Prop) (fit : O -> P -> Prop) (good : S -> Prop) (ok : C -> Prop).
  Context (agree_refl : forall o s, agree o s s) (agree_sym : forall o s t, agree o s t -> agree o t s)
    (agree_trans : forall o s t u, agree o s t -> agree o t u -> agree o s u).
  Context (enter_fit : forall c, ok c -> fit (obj c) (enter c)).
  Context (step_good : forall o p s p' s', fit o p -> good s -> step o p s p' s' ->
    fit o p' /\ good s' /\ forall o', o' <> o -> agree o' s s').
  Context (step_agree : forall o p s t p' s', fit o p -> good s -> good t -> agree o s t -> step o p s p' s' ->
    exists t', step o p t p' t' /\ agree o s' t').
  Notation steps o := (rtc (fun (x y : P * S) => step o x.1 x.2 y.1 y.2)).
  Context (reads : forall c p s s', ok c -> rd c = true -> steps (obj c) (enter c, s) (p, s') -> s' = s).

  Lemma steps_good o x y : steps o x y -> fit o x.1 -> good x.2 -> fit o y.1 /\ good y.2 /\ forall o', o' <> o -> agree o' x.2 y.2.
  Proof.
    induction 1 as [x|x y z H _ IH]; intros F G; [auto|]. destruct (step_good _ _ _ _ _ F G H) as (F' & G' & A).
    destruct (IH F' G') as (F2 & G2 & A2). split_and!; auto. intros o' N. eauto.
  Qed.
  Lemma steps_agree o x y t : steps o x y -> fit o x.1 -> good x.2 -> good t -> agree o x.2 t ->
    exists t', steps o (x.1, t) (y.1, t') /\ agree o y.2 t'.
  Proof.
    intros H. revert t. induction H as [x|x y z H _ IH]; intros t F G Gt A; [exists t; split; [apply rtc_refl|done]|].
    destruct (step_agree _ _ _ _ _ _ F G Gt A H) as (t' & H' & A'). destruct (step_good _ _ _ _ _ F G H) as (F' & G' & _).
    destruct (step_good _ _ _ _ _ F Gt H') as (_ & Gt' & _). destruct (IH t' F' G' Gt' A') as (t2 & H2 & A2). exists t2. split; [|exact A2].
    eapply rtc_l; [|exact H2]. exact H'.
  Qed.

  Notation mach := (@mach O S C P R).
  Notation mstep := (mstep obj rd enter step ret).
  Notation serial := (serial obj enter step ret).

  Definition cur_call (t : thr C P R) : list C := match t_cur t with Some (c, _) => [c] | None => [] end.

  Record inv (s0 : S) (css : list (list C)) (m : mach) (h : list (nat * C * R)) (t : S) : Prop := {
    i_seq : serial s0 h t;
    i_good : good t;
    i_mem : good (mc_mem m);
    i_len : length (mc_thr m) = length css;
    i_in : forall x, x ∈ h -> (x.1.1 < length css)%nat;
    i_calls : forall i th, mc_thr m !! i = Some th -> calls_of i h = t_done th /\ css !! i = Some ((t_done th).*1 ++ cur_call th ++ t_todo th);
    i_lock : forall i d c p l, mc_thr m !! i = Some (mkThr d (Some (c, p)) l) ->
      if rd c then exists X, mc_locks m (obj c) = LkR X /\ i ∈ X else mc_locks m (obj c) = LkW i;
    i_data : forall o, (forall i d c p l, mc_thr m !! i = Some (mkThr d (Some (c, p)) l) -> obj c = o -> rd c = true) -> agree o (mc_mem m) t;
    i_cur : forall i d c p l, mc_thr m !! i = Some (mkThr d (Some (c, p)) l) ->
      exists t1, steps (obj c) (enter c, t) (p, t1) /\ agree (obj c) (mc_mem m) t1 }.

  Lemma calls_of_snoc i h j (c : C) (r : R) : calls_of i (h ++ [(j, c, r)]) = calls_of i h ++ (if decide (j = i) then [(c, r)] else []).
  Proof. unfold calls_of. rewrite omap_app. f_equal. cbn. by case_decide. Qed.

  Lemma inv_start s0 css : good s0 -> inv s0 css (m_start s0 css) [] s0.
  Proof.
    intros G. assert (forall i d c p l, ((fun l => mkThr [] None l : thr C P R) <$> css) !! i <> Some (mkThr d (Some (c, p)) l)) as N.
    { intros i d c p l. rewrite list_lookup_fmap. by destruct (css !! i). }
    split; cbn; auto using serial_nil.
    - by rewrite fmap_length.
    - intros x Hx. by apply elem_of_nil in Hx.
    - intros i th H. rewrite list_lookup_fmap in H. destruct (css !! i) as [l|]; [|done]. by injection H as <-.
    - intros i d c p l H. by apply N in H.
    - intros i d c p l H. by apply N in H.
  Qed.

  Context (css : list (list C)) (css_ok : forall i l c, css !! i = Some l -> c ∈ l -> ok c).

  Lemma inv_ok s0 m h t i d c p l : inv s0 css m h t -> mc_thr m !! i = Some (mkThr d (Some (c, p)) l) -> ok c.
  Proof.
    intros I H. destruct (i_calls _ _ _ _ _ I _ _ H) as [_ E]. eapply css_ok; [exact E|]. cbn. rewrite !elem_of_app, elem_of_cons. auto.
  Qed.
  Lemma inv_ok_todo s0 m h t i d c l : inv s0 css m h t -> mc_thr m !! i = Some (mkThr d None (c :: l)) -> ok c.
  Proof.
    intros I H. destruct (i_calls _ _ _ _ _ I _ _ H) as [_ E]. eapply css_ok; [exact E|]. cbn. rewrite !elem_of_app, elem_of_cons. auto.
  Qed.

  (** Two goroutines in calls on one object are both reading. *)
  Lemma inv_two s0 m h t i d c p l i' d' c' p' l' : inv s0 css m h t -> mc_thr m !! i = Some (mkThr d (Some (c, p)) l) ->
    mc_thr m !! i' = Some (mkThr d' (Some (c', p')) l') -> i <> i' -> obj c = obj c' -> rd c = true /\ rd c' = true.
  Proof.
    intros I H H' N E. pose proof (i_lock _ _ _ _ _ I _ _ _ _ _ H) as L. pose proof (i_lock _ _ _ _ _ I _ _ _ _ _ H') as L'.
    rewrite <- E in L'. destruct (rd c), (rd c'); auto.
    - destruct L as (X & L & _). congruence.
    - destruct L' as (X & L' & _). congruence.
    - congruence.
  Qed.

  Lemma set_lock_eq f o l : set_lock (O := O) f o l o = l.
  Proof. unfold set_lock. by rewrite decide_True. Qed.
  Lemma set_lock_ne f o l o' : o' <> o -> set_lock (O := O) f o l o' = f o'.
  Proof. intros N. unfold set_lock. by rewrite decide_False. Qed.

  (** Entering a call. *)
  Lemma inv_enter s0 s f ts h t i d c l lk' : inv s0 css (mkMach s f ts) h t -> ts !! i = Some (mkThr d None (c :: l)) ->
    (forall j d' c' p' l', ts !! j = Some (mkThr d' (Some (c', p')) l') -> obj c' = obj c -> rd c' = true /\ rd c = true) ->
    (if rd c then exists X, f (obj c) = LkR X /\ lk' = LkR ({[i]} ∪ X) else lk' = LkW i) ->
    inv s0 css (mkMach s (set_lock f (obj c) lk') (<[i := mkThr d (Some (c, enter c)) l]> ts)) h t.
  Proof.
    intros I Hi Ho Hl. pose proof (lookup_lt_Some _ _ _ Hi) as Lt. destruct I as [Iseq Igood Imem Ilen Iin Icalls Ilock Idata Icur]. cbn in *. split; cbn; auto.
    - by rewrite insert_length.
    - intros j th H. destruct (decide (i = j)) as [<-|N]; [|rewrite list_lookup_insert_ne in H by done; auto].
      rewrite list_lookup_insert in H by done. injection H as <-. apply Icalls in Hi. exact Hi.
    - intros j d' c' p' l' H. destruct (decide (i = j)) as [<-|N].
      + rewrite list_lookup_insert in H by done. injection H as <- <- <- <-. rewrite set_lock_eq. destruct (rd c); [|exact Hl].
        destruct Hl as (X & _ & ->). exists ({[i]} ∪ X). set_solver.
      + rewrite list_lookup_insert_ne in H by done. pose proof (Ilock _ _ _ _ _ H) as L. destruct (decide (obj c' = obj c)) as [E|NE].
        * destruct (Ho _ _ _ _ _ H E) as [E1 E2]. rewrite E1 in *. rewrite E2 in Hl. rewrite E in *. destruct L as (X & L & Hj). destruct Hl as (X' & L' & ->).
          rewrite set_lock_eq. exists ({[i]} ∪ X'). split; [done|]. assert (X = X') as -> by congruence. set_solver.
        * by rewrite set_lock_ne.
    - intros o Hn. apply Idata. intros j d' c' p' l' H E. apply (Hn j d' c' p' l'); [|exact E]. rewrite list_lookup_insert_ne; [exact H|].
      intros <-. congruence.
    - intros j d' c' p' l' H. destruct (decide (i = j)) as [<-|N]; [|rewrite list_lookup_insert_ne in H by done; eauto].
      rewrite list_lookup_insert in H by done. injection H as <- <- <- <-. exists t. split; [apply rtc_refl|]. apply Idata. intros j d' c' p' l' H E. by destruct (Ho _ _ _ _ _ H E).
  Qed.

  (** Leaving a call. *)
  Lemma inv_leave s0 s f ts h t i d c p l r lk' : inv s0 css (mkMach s f ts) h t -> ts !! i = Some (mkThr d (Some (c, p)) l) -> ret p = Some r ->
    (if rd c then exists X, f (obj c) = LkR X /\ lk' = LkR (X ∖ {[i]}) else lk' = LkR ∅) ->
    exists t', inv s0 css (mkMach s (set_lock f (obj c) lk') (<[i := mkThr (d ++ [(c, r)]) None l]> ts)) (h ++ [(i, c, r)]) t'.
  Proof.
    intros I Hi Hr Hl. pose proof (lookup_lt_Some _ _ _ Hi) as Lt. pose proof (inv_ok _ _ _ _ _ _ _ _ _ I Hi) as Hok.
    pose proof (fun j d' c' p' l' => inv_two _ _ _ _ _ _ _ _ _ j d' c' p' l' I Hi) as H2. pose proof (fun j d' c' p' l' => inv_ok _ _ _ _ j d' c' p' l' I) as Hoks.
    destruct I as [Iseq Igood Imem Ilen Iin Icalls Ilock Idata Icur]. cbn in *.
    destruct (Icur _ _ _ _ _ Hi) as (t1 & Hs & Ha). exists t1. destruct (steps_good _ _ _ Hs (enter_fit _ Hok) Igood) as (_ & G1 & A1). cbn in *.
    assert (rd c = true -> t1 = t) as Et by (intros E; eapply reads; eauto). split; cbn; auto.
    - econstructor; [exact Iseq|]. exists p. auto.
    - by rewrite insert_length.
    - intros x Hx. apply elem_of_app in Hx as [Hx|Hx]; [auto|]. apply elem_of_list_singleton in Hx as ->. cbn. by rewrite <- Ilen.
    - intros j th H. rewrite calls_of_snoc. destruct (decide (i = j)) as [<-|N].
      + rewrite list_lookup_insert in H by done. injection H as <-. cbn. destruct (Icalls _ _ Hi) as [-> E]. split; [done|].
        rewrite E, fmap_app, <- app_assoc. done.
      + rewrite list_lookup_insert_ne in H by done. rewrite app_nil_r. auto.
    - intros j d' c' p' l' H. destruct (decide (i = j)) as [<-|N]; [by rewrite list_lookup_insert in H by done|].
      rewrite list_lookup_insert_ne in H by done. pose proof (Ilock _ _ _ _ _ H) as L. destruct (decide (obj c' = obj c)) as [E|NE]; [|by rewrite set_lock_ne].
      destruct (H2 _ _ _ _ _ H N (eq_sym E)) as [E1 E2]. rewrite E2 in *. rewrite E1 in Hl. rewrite E in *. destruct L as (X & L & Hj). destruct Hl as (X' & L' & ->).
      rewrite set_lock_eq. exists (X' ∖ {[i]}). split; [done|]. assert (X = X') as -> by congruence. set_solver.
    - intros o Hn. destruct (decide (o = obj c)) as [->|N]; [exact Ha|]. eapply agree_trans; [|apply A1, N]. apply Idata.
      intros j d' c' p' l' H E. apply (Hn j d' c' p' l'); [|exact E]. rewrite list_lookup_insert_ne; [exact H|]. intros <-. congruence.
    - intros j d' c' p' l' H. destruct (decide (i = j)) as [<-|N]; [by rewrite list_lookup_insert in H by done|].
      rewrite list_lookup_insert_ne in H by done. destruct (Icur _ _ _ _ _ H) as (t2 & Hs2 & Ha2). destruct (decide (obj c' = obj c)) as [E|NE].
      + destruct (H2 _ _ _ _ _ H N (eq_sym E)) as [E1 _]. rewrite (Et E1). eauto.
      + destruct (steps_agree _ _ _ t1 Hs2 (enter_fit _ (Hoks _ _ _ _ _ H)) Igood G1 (A1 _ NE)) as (t3 & Hs3 & Ha3). cbn in *. exists t3. split; [exact Hs3|]. eauto.
  Qed.

  Lemma inv_step s0 m m' h t : inv s0 css m h t -> mstep m m' -> exists h' t', inv s0 css m' (h ++ h') t'.
  Proof.
    intros I M. destruct M as [s f ts i d c l Hi Hr Hf|s f ts i d c l X Hi Hr Hf|s f ts i d c p l p' s' Hi Hs|s f ts i d c p l r Hi Hp Hr|s f ts i d c p l r X Hi Hp Hr Hf].
    - exists [], t. rewrite app_nil_r. apply inv_enter; auto; [|by rewrite Hr]. intros j d' c' p' l' H E. pose proof (i_lock _ _ _ _ _ I _ _ _ _ _ H) as L. cbn in L. rewrite E, Hf in L.
      destruct (rd c'); [|done]. destruct L as (X & [= <-] & L). set_solver.
    - exists [], t. rewrite app_nil_r. apply inv_enter; auto; [|rewrite Hr; eauto]. intros j d' c' p' l' H E. pose proof (i_lock _ _ _ _ _ I _ _ _ _ _ H) as L. cbn in L. rewrite E, Hf in L.
      by destruct (rd c').
    - exists [], t. rewrite app_nil_r. pose proof (lookup_lt_Some _ _ _ Hi) as Lt. pose proof (inv_ok _ _ _ _ _ _ _ _ _ I Hi) as Hok.
      pose proof (fun j d' c' p' l' => inv_two _ _ _ _ _ _ _ _ _ j d' c' p' l' I Hi) as H2. pose proof (fun j d' c' p' l' => inv_ok _ _ _ _ j d' c' p' l' I) as Hoks.
      destruct I as [Iseq Igood Imem Ilen Iin Icalls Ilock Idata Icur]. cbn in *.
      destruct (Icur _ _ _ _ _ Hi) as (t1 & Hs1 & Ha). destruct (steps_good _ _ _ Hs1 (enter_fit _ Hok) Igood) as (F1 & G1 & A1). cbn in *.
      destruct (step_good _ _ _ _ _ F1 Imem Hs) as (F' & G' & A'). destruct (step_agree _ _ _ _ _ _ F1 Imem G1 Ha Hs) as (t2 & Hs2 & Ha2).
      assert (steps (obj c) (enter c, t) (p', t2)) as Hs3 by (eapply rtc_r; [exact Hs1|exact Hs2]).
      assert (rd c = true -> t2 = t) as Et by (intros E; eapply reads; eauto).
      split; cbn; auto.
      + by rewrite insert_length.
      + intros j th H. destruct (decide (i = j)) as [<-|N]; [|rewrite list_lookup_insert_ne in H by done; auto].
        rewrite list_lookup_insert in H by done. injection H as <-. apply Icalls in Hi. exact Hi.
      + intros j d' c' q l' H. destruct (decide (i = j)) as [<-|N]; [|rewrite list_lookup_insert_ne in H by done; apply (Ilock _ _ _ _ _ H)].
        rewrite list_lookup_insert in H by done. injection H as <- <- <- <-. apply (Ilock _ _ _ _ _ Hi).
      + intros o Hn. assert (agree o s t) as A0.
        { apply Idata. intros j d' c' q l' H E. destruct (decide (i = j)) as [<-|N].
          - rewrite Hi in H. injection H as <- <- <- <-. apply (Hn i d c p' l); [|exact E]. by rewrite list_lookup_insert.
          - apply (Hn j d' c' q l'); [|exact E]. by rewrite list_lookup_insert_ne. }
        destruct (decide (o = obj c)) as [->|N]; [|eauto].
        rewrite Et in Ha2; [exact Ha2|]. apply (Hn i d c p' l); [|done]. by rewrite list_lookup_insert.
      + intros j d' c' q l' H. destruct (decide (i = j)) as [<-|N].
        * rewrite list_lookup_insert in H by done. injection H as <- <- <- <-. eauto.
        * rewrite list_lookup_insert_ne in H by done. destruct (Icur _ _ _ _ _ H) as (t3 & Hs4 & Ha3). exists t3. split; [exact Hs4|].
          destruct (decide (obj c' = obj c)) as [E|NE]; [|eauto]. destruct (H2 _ _ _ _ _ H N (eq_sym E)) as [E1 E2].
          rewrite (reads _ _ _ _ (Hoks _ _ _ _ _ H) E2 Hs4). rewrite Et in Ha2 by done. by rewrite E.
    - destruct (inv_leave _ _ _ _ _ _ _ _ _ _ _ _ (LkR ∅) I Hi Hp) as (t' & I'); [by rewrite Hr|]. eauto.
    - destruct (inv_leave _ _ _ _ _ _ _ _ _ _ _ _ (LkR (X ∖ {[i]})) I Hi Hp) as (t' & I'); [rewrite Hr; eauto|]. eauto.
  Qed.

  Lemma inv_steps s0 m m' h t : rtc mstep m m' -> inv s0 css m h t -> exists h' t', inv s0 css m' (h ++ h') t'.
  Proof.
    intros H. revert h t. induction H as [m|m1 m2 m3 M _ IH]; intros h t I; [exists [], t; by rewrite app_nil_r|].
    destruct (inv_step _ _ _ _ _ I M) as (h' & t' & I'). destruct (IH _ _ I') as (h2 & t2 & I2). exists (h' ++ h2), t2. by rewrite app_assoc.
  Qed.

  (** Every execution in which all calls returned is one of the same calls in sequence:
      each goroutine's calls in its order, each with the same result, the same memory at
      the end. The calls that had returned at some moment [m1] come first. *)
  Theorem linear s0 m1 m : good s0 -> rtc mstep (m_start s0 css) m1 -> rtc mstep m1 m -> m_done m -> (forall s t, (forall o, agree o s t) -> s = t) ->
    exists h h', serial s0 (h ++ h') (mc_mem m) /\ length (mc_thr m) = length css /\
      (h ++ h').*1.*2 ≡ₚ concat css /\
      (forall i th, mc_thr m1 !! i = Some th -> calls_of i h = t_done th) /\
      forall i th, mc_thr m !! i = Some th -> css !! i = Some (t_done th).*1 /\ calls_of i (h ++ h') = t_done th.
  Proof.
    intros G H1 H D X. destruct (inv_steps _ _ _ _ _ H1 (inv_start s0 css G)) as (h & t1 & I1). cbn in I1. destruct (inv_steps _ _ _ _ _ H I1) as (h' & t & I).
    assert (mc_mem m = t) as E.
    { apply X. intros o. apply (i_data _ _ _ _ _ I). intros i d c p l Hi _. by destruct (D _ _ Hi). }
    assert (forall i th, mc_thr m !! i = Some th -> css !! i = Some (t_done th).*1 /\ calls_of i (h ++ h') = t_done th) as K.
    { intros i th Hi. destruct (i_calls _ _ _ _ _ I _ _ Hi) as [Hc Hl].
      destruct (D _ _ Hi) as [D1 D2]. unfold cur_call in Hl. rewrite D1, D2 in Hl. cbn in Hl. rewrite app_nil_r in Hl. auto. }
    exists h, h'. split_and!; [rewrite E; apply (i_seq _ _ _ _ _ I)|apply (i_len _ _ _ _ _ I)| | |exact K].
    - rewrite (calls_of_perm _ (length css)) by apply (i_in _ _ _ _ _ I). match goal with |- concat ?a ≡ₚ concat ?b => replace a with b; [done|] end. symmetry. apply list_eq. intros i. rewrite list_lookup_fmap.
      destruct (decide (i < length css)%nat) as [Lt|Ge].
      + rewrite lookup_seq_lt by done. cbn. rewrite <- (i_len _ _ _ _ _ I) in Lt. apply lookup_lt_is_Some in Lt as [th Hth]. destruct (K _ _ Hth) as [K1 K2]. by rewrite K1, K2.
      + rewrite lookup_seq_ge by lia. cbn. symmetry. apply lookup_ge_None. lia.
    - intros i th Hi. apply (i_calls _ _ _ _ _ I1 _ _ Hi).
  Qed.
End lin.
