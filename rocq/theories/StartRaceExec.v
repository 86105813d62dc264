(** Running the machine of StartRace.v: [inl j] lets goroutine [j] of Start take a step,
    [inr i] goroutine [i] calling methods. With [q] steps that break [quiet] are left
    out. *)
From Verif Require Import Base GoVal Indom Metrics Registry Prog Client World OpRuns Locks LocksExec Conc StartRace StartRaceFacts.
From Verif Require Import BaseFacts ByteWriter View RegInv Update WorldInv Example ConcFacts ConcWitness.
From stdpp Require Import relations.
Local Open Scope Z_scope.

Definition call_next (o : option nat) (p : mprog) (s : mem) : option (mprog * mem) := match o with Some mp => qnext mp p s | None => None end.
Definition race_exec1 (hp : heap) (wr : nat) (x : nat + nat) (r : race) : option race :=
  match x with
  | inl j => g ← rc_g r !! j; y ← snext wr g (mc_mem (rc_m r)); Some (mkRace (with_mem (rc_m r) y.2) (<[j := y.1]> (rc_g r)))
  | inr i => m ← exec1 mc_obj mc_rd (mc_enter hp) call_next mc_ret i (rc_m r); Some (mkRace m (rc_g r))
  end.
Definition quietb (r : race) : bool :=
  forallb (fun g => match s_st g with SRun _ _ => match mc_locks (rc_m r) (Some (s_key g).1) with LkW _ => false | LkR _ => true end | _ => true end) (rc_g r).
Fixpoint race_exec (q : bool) (hp : heap) (wr : nat) (sched : list (nat + nat)) (r : race) : race :=
  match sched with
  | [] => r
  | x :: l => race_exec q hp wr l (match race_exec1 hp wr x r with
                                   | Some r' => if negb q || (quietb r && quietb r') then r' else r
                                   | None => r end)
  end.

Lemma quietb_sound r : quietb r = true -> quiet r.
Proof.
  unfold quietb, quiet. rewrite forallb_forall. intros H j g v p i Hj Hs E. specialize (H g). rewrite <- elem_of_list_In in H. specialize (H (elem_of_list_lookup_2 _ _ _ Hj)).
  rewrite Hs in H. by rewrite E in H.
Qed.
Lemma mstep_ext {O S C P R : Type} `{EqDecision O} (obj : C -> O) (rd : C -> bool) (enter : C -> P) (step step' : O -> P -> S -> P -> S -> Prop) (ret : P -> option R) (m m' : mach (O := O) (S := S) (C := C) (P := P) (R := R)) :
  (forall o p s p' s', step o p s p' s' -> step' o p s p' s') -> mstep obj rd enter step ret m m' -> mstep obj rd enter step' ret m m'.
Proof. intros H. inversion 1; subst; econstructor; eauto. Qed.
Lemma race_exec1_step hp wr x r r' : race_exec1 hp wr x r = Some r' -> race_step hp wr r r'.
Proof.
  destruct r as [m gs]. destruct x as [j|i]; cbn.
  - destruct (gs !! j) as [g|] eqn:Hj; [|done]. cbn. destruct (snext wr g (mc_mem m)) as [[g' s']|] eqn:E; [|done]. cbn. intros [= <-]. by eapply rc_start.
  - destruct (exec1 _ _ _ _ _ i m) as [m'|] eqn:E; [|done]. cbn. intros [= <-]. apply rc_call. apply exec1_step in E. eapply mstep_ext; [|exact E].
    intros [mp|] p s p' s' Hs; [exact Hs|done].
Qed.
Lemma race_exec_steps q hp wr sched r : rtc (fun a b => race_step hp wr a b /\ (q = true -> quiet a /\ quiet b)) r (race_exec q hp wr sched r).
Proof.
  revert r. induction sched as [|x l IH]; intros r; cbn; [apply rtc_refl|]. destruct (race_exec1 hp wr x r) as [r'|] eqn:E; [|apply IH].
  destruct (negb q || (quietb r && quietb r')) eqn:Q; [|apply IH]. eapply rtc_l; [|apply IH]. split; [by eapply race_exec1_step|]. intros ->. cbn in Q. apply andb_true_iff in Q as [Q1 Q2]. split; by apply quietb_sound.
Qed.
Definition race_doneb (r : race) : bool := all_done (rc_m r) && forallb (fun g => match s_st g with SFin _ => true | _ => false end) (rc_g r).
Lemma race_doneb_sound r : race_doneb r = true -> race_done r.
Proof.
  unfold race_doneb. intros H. apply andb_true_iff in H as [H1 H2]. split; [by apply all_done_sound|]. intros j g Hj. rewrite forallb_forall in H2. specialize (H2 g). rewrite <- elem_of_list_In in H2.
  specialize (H2 (elem_of_list_lookup_2 _ _ _ Hj)). destruct (s_st g); [done|done|eauto].
Qed.

(** ** A concrete case: a counter and a metric with two instances, new 96 byte file *)
Definition rw_files : files := mkFiles {[0%nat := mkWriter 0 true]} {[0%nat := zeros 96]}.
Definition rw_ks : list (vkey * Z) := [((1%nat, None), 0); ((3%nat, Some (str "a")), 32); ((3%nat, Some (str "b")), 64)].
Definition rw_start (css : list (list mcall)) : race := race_start (mkMem (h_metrics (w_heap cw)) rw_files) css rw_ks.
Definition rw_run (q : bool) (css : list (list mcall)) (sched : list (nat + nat)) : race := race_exec q (w_heap cw) 0 sched (rw_start css).
(** the counter: its value and the first byte of its slot *)
Definition rw_seen (r : race) : option goval * option byte :=
  (match q_metrics (mc_mem (rc_m r)) !! 1%nat with Some m => c_val <$> cell_at m None | None => None end,
   match f_inodes (q_files (mc_mem (rc_m r))) !! 0%nat with Some b => b !! 0%nat | None => None end).

Definition freshb (m : metric) : bool := body_fitsb (m_body m) && forallb (fun c => match c_upd c with None => true | _ => false end) (all_cells m).
Lemma cw_fresh mp m : h_metrics (w_heap cw) !! mp = Some m -> body_fits (m_body m) /\ forall n c, cell_at m n = Some c -> c_upd c = None.
Proof.
  assert (forallb (fun x => freshb x.2) (map_to_list (h_metrics (w_heap cw))) = true) as H by (vm_compute; reflexivity). rewrite forallb_forall in H.
  intros Hm. specialize (H (mp, m)). rewrite <- elem_of_list_In, elem_of_map_to_list in H. specialize (H Hm). apply andb_true_iff in H as [H1 H2]. split; [by apply body_fitsb_ok|].
  intros n c Hc. rewrite forallb_forall in H2. specialize (H2 c). rewrite <- elem_of_list_In, all_cells_in in H2. specialize (H2 ltac:(eauto)). by destruct (c_upd c).
Qed.
Lemma rw_starting : starting (w_heap cw) rw_files 0 (mkWriter 0 true) (zeros 96) rw_ks.
Proof.
  split.
  - split; vm_compute; reflexivity.
  - vm_compute. reflexivity.
  - intros key off. unfold rw_ks. rewrite !elem_of_cons, elem_of_nil. intros [[= -> ->]|[[= -> ->]|[[= -> ->]|[]]]]; eexists _, _; (split; [vm_compute; reflexivity|]); (split; [vm_compute; reflexivity|]);
      (split; [reflexivity|]); (split; [lia|]); vm_compute; discriminate.
  - intros j j' key off key' off' m m' Ne H1 H2 H3 H4. destruct j as [|[|[|j]]]; destruct j' as [|[|[|j']]]; try done; cbn in H1, H2; simplify_eq; cbn [fst] in *; vm_compute in H3, H4; simplify_eq;
      (split; [try congruence; by vm_compute|]); cbn [m_desc md_type]; unfold slot_w; cbn; lia.
  - intros mp m n c cl y Hm Hc Hu. destruct (cw_fresh mp m Hm) as [_ F]. rewrite (F n c Hc) in Hu. done.
Qed.
