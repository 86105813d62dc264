(** The machine of Locks.v with more or fewer calls still to do. *)
From Verif Require Import Base Locks.
From stdpp Require Import relations.

Section cut.
  Context {O S C P R : Type} `{EqDecision O}.
  Context (obj : C -> O) (rd : C -> bool) (enter : C -> P) (step : O -> P -> S -> P -> S -> Prop) (ret : P -> option R).
  Notation mach := (mach (O := O) (S := S) (C := C) (P := P) (R := R)).
  Notation mstep := (mstep obj rd enter step ret).

  (** Goroutine [i] has also the calls [r i] to do, after the others. *)
  Definition ext_thr (r : nat -> list C) (i : nat) (t : thr C P R) : thr C P R := mkThr (t_done t) (t_cur t) (t_todo t ++ r i).
  Definition ext (r : nat -> list C) (m : mach) : mach := mkMach (mc_mem m) (mc_locks m) (imap (ext_thr r) (mc_thr m)).

  Lemma imap_insert {A B} (f : nat -> A -> B) i x (l : list A) : imap f (<[i := x]> l) = <[i := f i x]> (imap f l).
  Proof.
    apply list_eq. intros j. rewrite list_lookup_imap. destruct (decide (i = j)) as [<-|N].
    - destruct (decide (i < length l)%nat) as [L|L].
      + rewrite !list_lookup_insert; [done|by rewrite imap_length|done].
      + rewrite !list_insert_ge by (rewrite ?imap_length; lia). by rewrite list_lookup_imap.
    - rewrite !list_lookup_insert_ne by done. by rewrite list_lookup_imap.
  Qed.

  Lemma grow r m m' : mstep m m' -> mstep (ext r m) (ext r m').
  Proof.
    intros H. destruct H; unfold ext; cbn [mc_mem mc_locks mc_thr]; rewrite imap_insert; unfold ext_thr at 2; cbn [t_done t_cur t_todo];
      [eapply ms_lock|eapply ms_rlock|eapply ms_body|eapply ms_unlock|eapply ms_runlock]; eauto;
      rewrite list_lookup_imap; match goal with H : _ !! _ = Some _ |- _ => rewrite H end; reflexivity.
  Qed.
  Lemma grow_all r m m' : rtc mstep m m' -> rtc mstep (ext r m) (ext r m').
  Proof. induction 1; [apply rtc_refl|]. eapply rtc_l; [by apply grow|done]. Qed.
  Lemma ext_start r s css : ext r (m_start s css) = m_start s (imap (fun i l => l ++ r i) css).
  Proof.
    unfold ext, m_start. cbn [mc_mem mc_locks mc_thr]. f_equal. apply list_eq. intros i. rewrite list_lookup_imap, !list_lookup_fmap, list_lookup_imap. by destruct (css !! i).
  Qed.

  (** The calls that goroutines have not begun make no difference. *)
  Definition cut_thr (r : nat -> nat) (i : nat) (t : thr C P R) : thr C P R := mkThr (t_done t) (t_cur t) (take (length (t_todo t) - r i) (t_todo t)).
  Definition cut (r : nat -> nat) (m : mach) : mach := mkMach (mc_mem m) (mc_locks m) (imap (cut_thr r) (mc_thr m)).
  Definition long (r : nat -> nat) (m : mach) : Prop := forall i t, mc_thr m !! i = Some t -> (r i <= length (t_todo t))%nat.
  Lemma cut_step r m m' : mstep m m' -> long r m' -> long r m /\ mstep (cut r m) (cut r m').
  Proof.
    intros H L. assert (long r m) as L0.
    { intros j t Hj. revert L Hj. destruct H as [s f ts i d c l Hi _ _|s f ts i d c l X Hi _ _|s f ts i d c p l p' s' Hi _|s f ts i d c p l r0 Hi _ _|s f ts i d c p l r0 X Hi _ _ _]; cbn [mc_thr]; intros L Hj;
        (destruct (decide (i = j)) as [<-|N];
         [rewrite Hi in Hj; injection Hj as <-; specialize (L i _ (list_lookup_insert _ _ _ (lookup_lt_Some _ _ _ Hi))); cbn in *; lia|
          apply (L j t); cbn [mc_thr]; by rewrite list_lookup_insert_ne]). }
    split; [exact L0|]. clear L0. revert L.
    destruct H as [s f ts i d c l Hi H1 H2|s f ts i d c l X Hi H1 H2|s f ts i d c p l p' s' Hi H1|s f ts i d c p l r0 Hi H1 H2|s f ts i d c p l r0 X Hi H1 H2 H3]; intros L; unfold cut, long in *; cbn [mc_mem mc_locks mc_thr] in *; rewrite imap_insert;
      pose proof (L i _ (list_lookup_insert _ _ _ (lookup_lt_Some _ _ _ Hi))) as Li; cbn [t_todo] in Li; unfold cut_thr at 2; cbn [t_done t_cur t_todo].
    - eapply ms_lock; [|exact H1|exact H2]. rewrite list_lookup_imap, Hi. cbn [fmap option_fmap option_map cut_thr t_done t_cur t_todo length]. unfold cut_thr. cbn [t_done t_cur t_todo length].
      rewrite Nat.sub_succ_l by exact Li. reflexivity.
    - eapply ms_rlock; [|exact H1|exact H2]. rewrite list_lookup_imap, Hi. cbn [fmap option_fmap option_map]. unfold cut_thr. cbn [t_done t_cur t_todo length].
      rewrite Nat.sub_succ_l by exact Li. reflexivity.
    - eapply ms_body; [|exact H1]. by rewrite list_lookup_imap, Hi.
    - eapply ms_unlock; [|exact H1|exact H2]. by rewrite list_lookup_imap, Hi.
    - eapply ms_runlock; [|exact H1|exact H2|exact H3]. by rewrite list_lookup_imap, Hi.
  Qed.
  Lemma cut_steps r m m' : rtc mstep m m' -> long r m' -> long r m /\ rtc mstep (cut r m) (cut r m').
  Proof.
    induction 1 as [m|m m1 m' H _ IH]; intros L; [split; [done|apply rtc_refl]|]. destruct (IH L) as [L1 R1]. destruct (cut_step r m m1 H L1) as [L0 S0].
    split; [done|]. by eapply rtc_l.
  Qed.
  Lemma cut_start r s css : cut r (m_start s css) = m_start s (imap (fun i l => take (length l - r i) l) css).
  Proof.
    unfold cut, m_start. cbn [mc_mem mc_locks mc_thr]. f_equal. apply list_eq. intros i. rewrite list_lookup_imap, !list_lookup_fmap, list_lookup_imap. by destruct (css !! i).
  Qed.
  (** At a moment when no goroutine is inside a method: as if only the finished calls had ever been made. *)
  Lemma quiet_done s css m : rtc mstep (m_start s css) m -> (forall i t, mc_thr m !! i = Some t -> t_cur t = None) ->
    exists css' m', rtc mstep (m_start s css') m' /\ m_done m' /\ mc_mem m' = mc_mem m /\ t_done <$> mc_thr m' = t_done <$> mc_thr m /\
      (forall l c, l ∈ css' -> c ∈ l -> exists l0, l0 ∈ css /\ c ∈ l0).
  Proof.
    intros H Q. set (r := fun i => match mc_thr m !! i with Some t => length (t_todo t) | None => 0%nat end).
    destruct (cut_steps r _ _ H) as [_ R0]. { intros i t Hi. unfold r. rewrite Hi. done. }
    rewrite cut_start in R0. eexists _, _. split; [exact R0|]. split_and!.
    - intros i t Hi. unfold cut in Hi. cbn [mc_thr] in Hi. rewrite list_lookup_imap in Hi. destruct (mc_thr m !! i) as [t0|] eqn:E; [|done]. cbn in Hi. injection Hi as <-.
      unfold cut_thr. cbn [t_cur t_todo]. split; [by eapply Q|]. unfold r. by rewrite E, Nat.sub_diag.
    - done.
    - unfold cut. cbn [mc_thr]. apply list_eq. intros i. rewrite !list_lookup_fmap, list_lookup_imap. by destruct (mc_thr m !! i).
    - intros l c Hl Hc. apply elem_of_list_lookup in Hl as [i Hi]. rewrite list_lookup_imap in Hi. destruct (css !! i) as [l0|] eqn:E; [|done]. cbn in Hi. injection Hi as <-.
      exists l0. split; [by eapply elem_of_list_lookup_2|]. by eapply elem_of_take in Hc as (j & Hj & _); eapply elem_of_list_lookup_2.
  Qed.
End cut.
