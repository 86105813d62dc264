(** Running the machine of Locks.v: [exec sched m] lets the goroutines of the list
    [sched] take one step each, in that order. For concrete executions. *)
From Verif Require Import Base Locks.
From stdpp Require Import relations.
Local Open Scope Z_scope.

Section exec.
  Context {O S C P R : Type} `{EqDecision O}.
  Context (obj : C -> O) (rd : C -> bool) (enter : C -> P) (next : O -> P -> S -> option (P * S)) (ret : P -> option R).
  Let step (o : O) (p : P) (s : S) (p' : P) (s' : S) : Prop := next o p s = Some (p', s').

  Definition exec1 (i : nat) (m : mach (O := O) (S := S) (C := C) (P := P) (R := R)) : option mach :=
    match mc_thr m !! i with
    | Some (mkThr d None (c :: l)) =>
        match mc_locks m (obj c) with
        | LkW _ => None
        | LkR X =>
            if rd c then Some (mkMach (mc_mem m) (set_lock (mc_locks m) (obj c) (LkR ({[i]} ∪ X))) (<[i := mkThr d (Some (c, enter c)) l]> (mc_thr m)))
            else if decide (X = ∅) then Some (mkMach (mc_mem m) (set_lock (mc_locks m) (obj c) (LkW i)) (<[i := mkThr d (Some (c, enter c)) l]> (mc_thr m)))
            else None
        end
    | Some (mkThr d (Some (c, p)) l) =>
        match ret p with
        | Some r =>
            if rd c then
              match mc_locks m (obj c) with
              | LkR X => Some (mkMach (mc_mem m) (set_lock (mc_locks m) (obj c) (LkR (X ∖ {[i]}))) (<[i := mkThr (d ++ [(c, r)]) None l]> (mc_thr m)))
              | LkW _ => None
              end
            else Some (mkMach (mc_mem m) (set_lock (mc_locks m) (obj c) (LkR ∅)) (<[i := mkThr (d ++ [(c, r)]) None l]> (mc_thr m)))
        | None =>
            match next (obj c) p (mc_mem m) with
            | Some (p', s') => Some (mkMach s' (mc_locks m) (<[i := mkThr d (Some (c, p')) l]> (mc_thr m)))
            | None => None
            end
        end
    | _ => None
    end.
  Fixpoint exec (sched : list nat) (m : mach) : mach :=
    match sched with [] => m | i :: l => exec l (default m (exec1 i m)) end.

  Lemma exec1_step i m m' : exec1 i m = Some m' -> mstep obj rd enter step ret m m'.
  Proof.
    destruct m as [s f ts]. unfold exec1. cbn. destruct (ts !! i) as [[d cur l]|] eqn:Hi; [|done]. destruct cur as [[c p]|].
    - destruct (ret p) as [r|] eqn:Hr.
      + destruct (rd c) eqn:Hd.
        * destruct (f (obj c)) as [|X] eqn:Hf; [done|]. intros [= <-]. by eapply ms_runlock.
        * intros [= <-]. by eapply ms_unlock.
      + destruct (next (obj c) p s) as [[p' s']|] eqn:Hn; [|done]. intros [= <-]. by eapply ms_body.
    - destruct l as [|c l]; [done|]. destruct (f (obj c)) as [|X] eqn:Hf; [done|]. destruct (rd c) eqn:Hd.
      + intros [= <-]. by eapply ms_rlock.
      + destruct (decide (X = ∅)) as [->|]; [|done]. intros [= <-]. by eapply ms_lock.
  Qed.
  Lemma exec_steps sched m : rtc (mstep obj rd enter step ret) m (exec sched m).
  Proof.
    revert m. induction sched as [|i l IH]; intros m; cbn; [apply rtc_refl|]. destruct (exec1 i m) as [m'|] eqn:E; cbn; [|apply IH].
    eapply rtc_l; [by apply (exec1_step i)|apply IH].
  Qed.
  Definition all_done (m : mach (O := O) (S := S) (C := C) (P := P) (R := R)) : bool :=
    forallb (fun t => match t_cur t, t_todo t with None, [] => true | _, _ => false end) (mc_thr m).
  Lemma all_done_sound m : all_done m = true -> m_done m.
  Proof.
    unfold all_done, m_done. rewrite forallb_forall. intros H i t Hi. specialize (H t). rewrite <- elem_of_list_In in H. specialize (H (elem_of_list_lookup_2 _ _ _ Hi)).
    by destruct (t_cur t), (t_todo t).
  Qed.
End exec.
