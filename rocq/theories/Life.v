(** Life cycle of clients: which calls succeed when, what happens to files and metrics. *)
From Verif Require Import Base BaseFacts Floats GoVal MetricType ByteWriter Hash Units Indom Metrics Registry Prog
  Client Mmvdump Ileave ProgProofs Events StartEvents BufFacts Tiling StartGood StartLayout StartFinal StartDone
  View Sections StartView RegInv Update World OpRuns RegFacts WorldInv Sync FloatFacts ValueFacts MetricFacts SyncLive StartLive SyncView.

(** ** Specification: life cycle read off the calls made *)
(** A successful Start starts the client; any Stop stops it, even if a system call fails on the way. *)
Definition life_step (cid : nat) (b : bool) (x : world * call * outcome) : bool :=
  match x.1.2, x.2 with
  | CStart cid' _ _ _, ROk => if decide (cid' = cid) then true else b
  | CStop cid' _ _, _ => if decide (cid' = cid) then false else b
  | _, _ => b
  end.
Definition is_started (cid : nat) (tr : list (world * call * outcome)) : bool := foldl (life_step cid) false tr.

(** No registry belongs to two clients. *)
Definition unshared (w : world) : Prop :=
  forall cid cid' c c', w_clients w !! cid = Some c -> w_clients w !! cid' = Some c' -> cl_reg c = cl_reg c' -> cid = cid'.

(** A history in which every call satisfies [P] in the world it is made in. *)
Inductive phist (P : world -> call -> Prop) : world -> list (world * call * outcome) -> world -> Prop :=
| ph_nil w : phist P w [] w
| ph_cons w c o w1 tr w' : P w c -> wstep w c o w1 -> phist P w1 tr w' -> phist P w ((w, c, o) :: tr) w'.

Lemma phist_hist P w tr w' : phist P w tr w' -> hist w tr w'.
Proof. induction 1; econstructor; eauto. Qed.
Lemma hist_reachable w tr w' : hist w tr w' -> reachable w -> reachable w'.
Proof. induction 1 as [|w c o w1 tr w' S H IH]; intros R; [exact R|]. apply IH. eapply rtc_r; [exact R|]. by exists c, o. Qed.
Lemma hist_snoc w tr w' c o w'' : hist w tr w' -> wstep w' c o w'' -> hist w (tr ++ [(w', c, o)]) w''.
Proof. induction 1; intros; cbn; econstructor; eauto. constructor. Qed.
Lemma hist_app w t1 w1 t2 w2 : hist w t1 w1 -> hist w1 t2 w2 -> hist w (t1 ++ t2) w2.
Proof. induction 1; intros; cbn; [auto|econstructor; eauto]. Qed.
Lemma hist_snoc_inv w tr x w'' : hist w (tr ++ [x]) w'' -> exists w', hist w tr w' /\ wstep w' x.1.2 x.2 w''.
Proof.
  revert w. induction tr as [|y tr IH]; intros w H; cbn in H.
  - inversion H as [|? ? ? w1 ? ? S H']; subst. inversion H'; subst. exists w. split; [constructor|exact S].
  - inversion H as [|? ? ? w1 ? ? S H']; subst. apply IH in H' as (w' & H1 & H2). exists w'. split; [econstructor; eauto|exact H2].
Qed.

Lemma synced_hist cid gen pid w tr w' : w_ok w -> synced w cid gen pid -> phist (fun w cl => keeps w cid cl) w tr w' -> w_ok w' /\ synced w' cid gen pid.
Proof.
  intros W S H. induction H as [w|w cl o w1 tr w' K St H IH]; [auto|]. apply IH; [eapply wstep_ok; eauto|]. eapply synced_step; eauto.
Qed.

(** ** Steps and clients *)
Lemma step_clients w cl o w' cid c : wstep w cl o w' -> w_clients w !! cid = Some c ->
  exists c', w_clients w' !! cid = Some c' /\ cl_loc c' = cl_loc c /\ cl_reg c' = cl_reg c /\ cl_cluster c' = cl_cluster c.
Proof.
  intros H Hc. destruct H as [w rid Hd Hr0|w cid' name loc rid Hd Hc0 Hr0|w ip name insts desc d Hd Hip Hn|w mp ip m new Hd Hmp Hip Hcr|w rid mp r0 m o r' Hd Hr0 Hm Ha
    |w rid ip r0 d Hd Hr0 Hip|w rid ip name insts r0 o hp' r' Hd Hr0 Hip Ha|w rid mp ip name indom insts val t s u ord r0 o hp' r' Hd Hr0 Hmp Hip Hv Hda Hord Ha
    |w cid' flag c0 r0 Hd Hc0 Hr0|w cid' gen' pid' c0 r0 wr' ino' s Hd Hc0 Hr0 Hwr0 Hino Hs|w cid' gen' pid' c0 r0 ino' s Hd Hc0 Hr0 Hino Hs|w cid' gen' pid' c0 r0 paths inodes Hd Hc0 Hr0 Hs
    |w cid' erase os c0 r0 Hd Hc0 Hr0 Hm|w cid' erase c0 r0 o w' Hd Hc0 Hr0 Hm Hs|w cid' erase c0 r0 wr' fs' Hd Hc0 Hr0 Hm Hwr0 Hfs|w mp op mst m o fs' m' Hd Hm Ha Hu];
    cbn [w_clients set_regs started]; try (exists c; auto; fail).
  - exists c. rewrite lookup_insert_ne by congruence. auto.
  - destruct (r_mapped r0); [exists c; auto|]. destruct (decide (cid' = cid)) as [->|N]; [|exists c; rewrite lookup_insert_ne by exact N; auto].
    rewrite lookup_insert. eexists. split; [reflexivity|]. cbn. by simplify_eq.
  - destruct (decide (cid' = cid)) as [->|N]; [|exists c; rewrite lookup_insert_ne by exact N; auto].
    rewrite lookup_insert. eexists. split; [reflexivity|]. cbn. by simplify_eq.
  - unfold stopped in Hs. destruct (cl_wr c0); [|simplify_eq; exists c; auto].
    assert (w_clients w' = <[cid' := mkClient (cl_loc c0) (cl_cluster c0) (cl_flag c0) (cl_reg c0) None]> (w_clients w)) as -> by (destruct erase; simplify_eq; reflexivity).
    destruct (decide (cid' = cid)) as [->|N]; [|exists c; rewrite lookup_insert_ne by exact N; auto].
    rewrite lookup_insert. eexists. split; [reflexivity|]. cbn. by simplify_eq.
  - destruct (decide (cid' = cid)) as [->|N]; [|exists c; rewrite lookup_insert_ne by exact N; auto].
    rewrite lookup_insert. eexists. split; [reflexivity|]. cbn. by simplify_eq.
Qed.

Lemma step_unshared w cl o w' : wstep w cl o w' -> unshared w' -> unshared w.
Proof.
  intros S U cid1 cid2 c1 c2 H1 H2 E. destruct (step_clients _ _ _ _ _ _ S H1) as (c1' & A1 & _ & A2 & _). destruct (step_clients _ _ _ _ _ _ S H2) as (c2' & B1 & _ & B2 & _).
  eapply U; eauto. congruence.
Qed.

(** Registration calls keep the mapped flag. *)
Lemma reg_next_mapped hp r o hp' r' : reg_next hp r o hp' r' -> r_mapped r' = r_mapped r.
Proof. intros N. apply N. Qed.

(** ** mapped, the writer and the calls made agree *)
Record life (w : world) (tr : list (world * call * outcome)) : Prop := {
  lf_none : forall cid, w_clients w !! cid = None -> is_started cid tr = false;
  lf_some : forall cid c r, w_clients w !! cid = Some c -> w_regs w !! cl_reg c = Some r ->
    r_mapped r = is_started cid tr /\ (is_Some (cl_wr c) <-> is_started cid tr = true);
  lf_owner : forall rid r, w_regs w !! rid = Some r -> r_mapped r = true -> exists cid c, w_clients w !! cid = Some c /\ cl_reg c = rid }.

Lemma life_step_inv w tr cl o w' : w_ok w -> unshared w' -> life w tr -> wstep w cl o w' -> life w' (tr ++ [(w, cl, o)]).
Proof.
  intros W U [L1 L2 L3] H. pose proof (step_unshared _ _ _ _ H U) as U0.
  assert (forall cid, is_started cid (tr ++ [(w, cl, o)]) = life_step cid (is_started cid tr) (w, cl, o)) as IS by (intros; unfold is_started; by rewrite foldl_app).
  (* a step that changes at most the registries, keeping the mapped flags *)
  assert (KEEP : forall w', w_clients w' = w_clients w -> (forall rid r', w_regs w' !! rid = Some r' -> (exists r, w_regs w !! rid = Some r /\ r_mapped r' = r_mapped r) \/ (w_regs w !! rid = None /\ r_mapped r' = false)) ->
    (forall cid, is_started cid (tr ++ [(w, cl, o)]) = is_started cid tr) -> life w' (tr ++ [(w, cl, o)])).
  { intros w1 E1 E2 E3. split.
    - intros cid Hc. rewrite E3. apply L1. congruence.
    - intros cid c r' Hc Hr. rewrite E1 in Hc. rewrite E3. destruct (E2 _ _ Hr) as [(r & Hr0 & Em)|[Hr0 Em]].
      + rewrite Em. eauto.
      + exfalso. destruct (wo_clients _ W _ _ Hc) as [[x Hx] _]. congruence.
    - intros rid r' Hr Hm. destruct (E2 _ _ Hr) as [(r & Hr0 & Em)|[Hr0 Em]]; [|congruence]. rewrite Em in Hm. rewrite E1. eauto. }
  assert (REG : forall rid r o' hp' r', w_regs w !! rid = Some r -> reg_next (w_heap w) r o' hp' r' ->
    (forall rid0 r0, (<[rid := r']> (w_regs w)) !! rid0 = Some r0 -> (exists r, w_regs w !! rid0 = Some r /\ r_mapped r0 = r_mapped r) \/ (w_regs w !! rid0 = None /\ r_mapped r0 = false))).
  { intros rid r o' hp' r' Hr N rid0 r0 H0. left. apply lookup_insert_Some in H0 as [[<- <-]|[_ H0]]; [|eauto]. exists r. split; [exact Hr|apply N]. }
  assert (forall rid0 r0, w_regs w !! rid0 = Some r0 -> (exists r, w_regs w !! rid0 = Some r /\ r_mapped r0 = r_mapped r) \/ (w_regs w !! rid0 = None /\ r_mapped r0 = false)) as SAME by eauto.
  destruct H as [w rid Hd Hr0|w cid' name loc rid Hd Hc0 Hr0|w ip name insts desc d Hd Hip Hn|w mp ip m new Hd Hmp Hip Hcr|w rid mp r0 m o r' Hd Hr0 Hm Ha
    |w rid ip r0 d Hd Hr0 Hip|w rid ip name insts r0 o hp' r' Hd Hr0 Hip Ha|w rid mp ip name indom insts val t s u ord r0 o hp' r' Hd Hr0 Hmp Hip Hv Hda Hord Ha
    |w cid' flag c0 r0 Hd Hc0 Hr0|w cid' gen' pid' c0 r0 wr' ino' s Hd Hc0 Hr0 Hwr0 Hino Hs|w cid' gen' pid' c0 r0 ino' s Hd Hc0 Hr0 Hino Hs|w cid' gen' pid' c0 r0 paths inodes Hd Hc0 Hr0 Hs
    |w cid' erase os c0 r0 Hd Hc0 Hr0 Hm|w cid' erase c0 r0 o w' Hd Hc0 Hr0 Hm Hs|w cid' erase c0 r0 wr' fs' Hd Hc0 Hr0 Hm Hwr0 Hfs|w mp op mst m o fs' m' Hd Hm Ha Hu].
  - apply KEEP; auto. cbn. intros rid0 r1 H. apply lookup_insert_Some in H as [[<- <-]|[_ H]]; eauto.
  - split; cbn [w_clients w_regs].
    + intros cid Hc. rewrite IS. cbn. apply L1. apply lookup_insert_None in Hc. tauto.
    + intros cid c r Hc Hr. rewrite IS. cbn. apply lookup_insert_Some in Hc as [[<- <-]|[_ Hc]]; [|eauto]. cbn in Hr |- *. rewrite (L1 _ Hc0). split; [|split; [intros [? ?]; discriminate|discriminate]].
      destruct (r_mapped r) eqn:Em; [|reflexivity]. exfalso. destruct (L3 _ _ Hr Em) as (cid2 & c2 & H2 & E2).
      assert (cid2 = cid') as ->; [|congruence].
      eapply (U cid2 cid'); [cbn; rewrite lookup_insert_ne; [exact H2|congruence]|cbn; apply lookup_insert|]. exact E2.
    + intros rid0 r Hr Hm. destruct (L3 _ _ Hr Hm) as (cid2 & c2 & H2 & E2). exists cid2, c2. split; [|exact E2]. rewrite lookup_insert_ne; [exact H2|congruence].
  - apply KEEP; auto.
  - apply KEEP; auto.
  - apply KEEP; auto. cbn. eapply REG; [exact Hr0|]. eapply add_metric_next; [apply W|eapply wo_regs; eauto|exact Hm|exact Ha].
  - apply KEEP; auto. cbn. destruct (add_indom r0 ip d) as [r'|] eqn:E; [|exact SAME].
    eapply REG; [exact Hr0|]. eapply add_indom_next; [apply W|eapply wo_regs; eauto|exact Hip|exact E].
  - apply KEEP; auto. cbn. eapply REG; [exact Hr0|]. eapply add_indom_by_name_next; [apply W|eapply wo_regs; eauto|exact Hip|exact Ha].
  - apply KEEP; auto. cbn. eapply REG; [exact Hr0|]. eapply add_by_string_next; [apply W|eapply wo_regs; eauto|exact Hmp|exact Hip|exact Hv|exact Hda|exact Hord|exact Ha].
  - destruct (r_mapped r0) eqn:Em; [apply KEEP; auto|]. split; cbn [w_clients w_regs].
    + intros cid Hc. rewrite IS. cbn. apply L1. apply lookup_insert_None in Hc. tauto.
    + intros cid c r Hc Hr. rewrite IS. cbn. apply lookup_insert_Some in Hc as [[<- <-]|[_ Hc]]; [|eauto]. cbn in *. exact (L2 _ _ _ Hc0 Hr).
    + intros rid0 r Hr Hm. destruct (L3 _ _ Hr Hm) as (cid2 & c2 & H2 & E2). destruct (decide (cid' = cid2)) as [->|N].
      * eexists cid2, _. rewrite lookup_insert. split; [reflexivity|]. cbn. simplify_eq. reflexivity.
      * exists cid2, c2. split; [|exact E2]. by rewrite lookup_insert_ne.
  - unfold started. split; cbn [w_clients w_regs].
    + intros cid Hc. rewrite IS. cbn. apply lookup_insert_None in Hc as [Hc N]. rewrite decide_False by exact N. auto.
    + intros cid c r Hc Hr. rewrite IS. cbn. apply lookup_insert_Some in Hc as [[<- <-]|[N Hc]].
      * cbn in *. rewrite lookup_insert in Hr. rewrite decide_True by reflexivity. injection Hr as <-. split; [reflexivity|]. split; eauto.
      * rewrite decide_False by exact N. rewrite lookup_insert_ne in Hr; [eauto|]. intros E. apply N. eapply U0; eauto.
    + intros rid0 r Hr Hm. apply lookup_insert_Some in Hr as [[<- <-]|[_ Hr]].
      * eexists cid', _. rewrite lookup_insert. split; reflexivity.
      * destruct (L3 _ _ Hr Hm) as (cid2 & c2 & H2 & E2). destruct (decide (cid' = cid2)) as [->|N].
        -- eexists cid2, _. rewrite lookup_insert. split; [reflexivity|]. cbn. simplify_eq. reflexivity.
        -- exists cid2, c2. split; [|exact E2]. by rewrite lookup_insert_ne.
  - apply KEEP; auto.
  - apply KEEP; auto.
  - apply KEEP; auto. intros cid. rewrite IS. cbn. case_decide; [|reflexivity]. subst. destruct (L2 _ _ _ Hc0 Hr0) as [E _]. congruence.
  - destruct (L2 _ _ _ Hc0 Hr0) as [E1 E2]. rewrite Hm in E1. symmetry in E1. apply E2 in E1 as [wr Ewr]. unfold stopped in Hs. rewrite Ewr in Hs.
    assert (w_clients w' = <[cid' := mkClient (cl_loc c0) (cl_cluster c0) (cl_flag c0) (cl_reg c0) None]> (w_clients w)) as EC by (destruct erase; simplify_eq; reflexivity).
    assert (w_regs w' = <[cl_reg c0 := set_mapped r0 false]> (w_regs w)) as ER by (destruct erase; simplify_eq; reflexivity).
    clear Hs. split; rewrite ?EC, ?ER.
    + intros cid Hc. rewrite IS. cbn. apply lookup_insert_None in Hc as [Hc N]. rewrite decide_False by exact N. auto.
    + intros cid c r Hc Hr. rewrite IS. cbn. apply lookup_insert_Some in Hc as [[<- <-]|[N Hc]].
      * cbn in *. rewrite lookup_insert in Hr. rewrite decide_True by reflexivity. injection Hr as <-. split; [reflexivity|]. split; [intros [? ?]; discriminate|discriminate].
      * rewrite decide_False by exact N. rewrite lookup_insert_ne in Hr; [eauto|]. intros E. apply N. eapply U0; eauto.
    + intros rid0 r Hr Hmm. apply lookup_insert_Some in Hr as [[<- <-]|[_ Hr]]; [discriminate|].
      destruct (L3 _ _ Hr Hmm) as (cid2 & c2 & H2 & E3). destruct (decide (cid' = cid2)) as [->|N].
      * eexists cid2, _. rewrite lookup_insert. split; [reflexivity|]. cbn. simplify_eq. reflexivity.
      * exists cid2, c2. split; [|exact E3]. by rewrite lookup_insert_ne.
  - split; cbn [w_clients w_regs].
    + intros cid Hc. rewrite IS. cbn. apply lookup_insert_None in Hc as [Hc N]. rewrite decide_False by exact N. auto.
    + intros cid c r Hc Hr. rewrite IS. cbn. apply lookup_insert_Some in Hc as [[<- <-]|[N Hc]].
      * cbn in *. rewrite lookup_insert in Hr. rewrite decide_True by reflexivity. injection Hr as <-. split; [reflexivity|]. split; [intros [? ?]; discriminate|discriminate].
      * rewrite decide_False by exact N. rewrite lookup_insert_ne in Hr; [eauto|]. intros E. apply N. eapply U0; eauto.
    + intros rid0 r Hr Hmm. apply lookup_insert_Some in Hr as [[<- <-]|[_ Hr]]; [discriminate|].
      destruct (L3 _ _ Hr Hmm) as (cid2 & c2 & H2 & E3). destruct (decide (cid' = cid2)) as [->|N].
      * eexists cid2, _. rewrite lookup_insert. split; [reflexivity|]. cbn. simplify_eq. reflexivity.
      * exists cid2, c2. split; [|exact E3]. by rewrite lookup_insert_ne.
  - apply KEEP; auto.
Qed.

Lemma hist_life tr : forall w, hist w_init tr w -> unshared w -> life w tr.
Proof.
  induction tr as [|x tr IH] using rev_ind; intros w H U.
  - inversion H; subst. split; [reflexivity|discriminate|discriminate].
  - destruct x as [[wx c] o]. assert (exists w1, hist w_init tr w1 /\ wx = w1 /\ wstep w1 c o w) as (w1 & H1 & -> & S).
    { clear -H. revert H. generalize w_init as w0. induction tr as [|y tr IH]; intros w0 H; cbn in H.
      - inversion H as [|? ? ? w1 ? ? S H']; subst. inversion H'; subst. exists wx. split_and!; [constructor|reflexivity|exact S].
      - inversion H as [|? ? ? w1 ? ? S H']; subst. apply IH in H' as (w2 & G1 & G2 & G3). exists w2. split_and!; auto. econstructor; eauto. }
    apply life_step_inv; auto.
    + apply reachable_ok. eapply hist_reachable; [exact H1|]. apply rtc_refl.
    + apply IH; [exact H1|]. eapply step_unshared; eauto.
Qed.

Lemma hist_ok tr w : hist w_init tr w -> w_ok w.
Proof. intros H. apply reachable_ok. eapply hist_reachable; [exact H|]. apply rtc_refl. Qed.

(** ** Stop *)
Lemma stop_outcome tr w cid erase o w' c : hist w_init tr w -> unshared w -> w_clients w !! cid = Some c -> wstep w (CStop cid erase true) o w' ->
  (o = ROk <-> is_started cid tr = true /\ (erase = true -> is_Some (w_paths w !! cl_loc c))) /\ (o = ROk \/ o = RErr) /\ (is_started cid tr = false -> w' = w).
Proof.
  intros H U Hc S. destruct (hist_life _ _ H U) as [L1 L2 L3].
  inversion S as [| | | | | | | | | | | |? ? ? ? c0 r0 Hd Hc0 Hr0 Hm|? ? ? c0 r0 ? ? Hd Hc0 Hr0 Hm Hs| |]; subst; assert (c0 = c) as -> by congruence; destruct (L2 _ _ _ Hc Hr0) as [E1 E2].
  - rewrite Hm in E1. rewrite <- E1. split; [|auto]. split; [discriminate|]. intros [? _]. discriminate.
  - rewrite Hm in E1. rewrite <- E1 in *. destruct (proj2 E2 eq_refl) as [wr Ewr]. unfold stopped in Hs. rewrite Ewr in Hs. destruct erase.
    + destruct (w_paths w !! cl_loc c) as [ino|]; injection Hs as <- <-; split_and!; auto; try discriminate.
      * split; [eauto|auto].
      * split; [discriminate|]. intros [_ K]. destruct (K eq_refl). discriminate.
    + injection Hs as <- <-. split_and!; auto; [split; [split; [auto|discriminate]|auto]|discriminate].
Qed.

Lemma unmap_inode fs wr ino : f_inodes (unmap_writer fs wr) !! ino = f_inodes fs !! ino.
Proof. unfold unmap_writer. destruct (f_writers fs !! wr); reflexivity. Qed.

Lemma stop_file w cid erase w' c : w_clients w !! cid = Some c -> wstep w (CStop cid erase true) ROk w' ->
  file_of w' c = if erase then None else file_of w c.
Proof.
  intros Hc S. inversion S as [| | | | | | | | | | | |? ? ? ? c0 r0 Hd Hc0 Hr0 Hm|? ? ? c0 r0 ? ? Hd Hc0 Hr0 Hm Hs| |]; subst. assert (c0 = c) as -> by congruence.
  unfold stopped in Hs. destruct (cl_wr c) as [wr|]; [|discriminate]. unfold file_of. destruct erase.
  - injection Hs as _ <-. cbn. by rewrite lookup_delete.
  - injection Hs as <-. cbn. destruct (w_paths w !! cl_loc c) as [ino|]; [|reflexivity]. cbn. apply unmap_inode.
Qed.

(** ** SetFlag *)
Lemma set_flag_outcome tr w cid flag o w' c : hist w_init tr w -> unshared w -> w_clients w !! cid = Some c -> wstep w (CSetFlag cid flag) o w' ->
  (o = ROk <-> is_started cid tr = false) /\ (o = ROk \/ o = RErr) /\
  exists c', w_clients w' !! cid = Some c' /\ cl_flag c' = (if is_started cid tr then cl_flag c else flag) /\
    (is_started cid tr = true -> c' = c) /\ w_heap w' = w_heap w /\ w_regs w' = w_regs w /\ w_files w' = w_files w /\ w_paths w' = w_paths w.
Proof.
  intros H U Hc S. destruct (hist_life _ _ H U) as [L1 L2 L3].
  inversion S as [| | | | | | | |? ? ? c0 r0 Hd Hc0 Hr0| | | | | | |]; subst. assert (c0 = c) as -> by congruence. destruct (L2 _ _ _ Hc Hr0) as [E1 E2]. rewrite <- E1.
  destruct (r_mapped r0) eqn:Em.
  - split; [split; discriminate|]. split; [auto|]. exists c. cbn. auto 10.
  - split; [split; auto|]. split; [auto|]. eexists. cbn. rewrite lookup_insert. split; [reflexivity|]. cbn. auto 10. split; [reflexivity|]. split; [discriminate|auto].
Qed.

(** ** Metrics after Stop *)
(** After Stop, a value that differs from the current one is stored through the unmapped writer. *)
Lemma store_dead fs c v cl x : c_upd c = Some cl -> f_writers fs !! cl_writer cl = Some x -> wr_live x = false ->
  store_cell fs c v = if go_eqb v (c_val c) then (ROk, fs, c) else (RFault, fs, c).
Proof.
  intros Hu Hw Hl. unfold store_cell. destruct (go_eqb v (c_val c)); [reflexivity|]. rewrite Hu. unfold run_update, with_writer. rewrite Hw, Hl. destruct v; reflexivity.
Qed.

Lemma stopped_faults w cid gen pid c r erase w' mp m cell v : w_ok w -> synced w cid gen pid -> w_clients w !! cid = Some c -> w_regs w !! cl_reg c = Some r ->
  wstep w (CStop cid erase true) ROk w' -> registered r mp -> h_metrics (w_heap w) !! mp = Some m -> m_body m = BSingle cell ->
  wf_goval v -> IsCompatible (md_type (m_desc m)) v = true -> go_eqb (resolve (md_type (m_desc m)) v) (c_val cell) = false ->
  h_metrics (w_heap w') !! mp = Some m /\ m_set (w_files w') m v = (RFault, w_files w', m).
Proof.
  intros W (c' & r' & wr & ino & pl & ad & am & buf & Hc & Hr & Hmap & Hwr & Hpath & S) Hc' Hr' St Hreg Hm Hb Hv Hi Hne.
  assert (c' = c) as -> by congruence. assert (r' = r) as -> by congruence.
  inversion St as [| | | | | | | | | | | |? ? ? ? c0 r0 Hd Hc0 Hr0 Hm0|? ? ? c0 r0 ? ? Hd Hc0 Hr0 Hm0 Hs| |]; subst. assert (c0 = c) as -> by congruence.
  unfold stopped in Hs. rewrite Hwr in Hs.
  assert (w_heap w' = w_heap w /\ w_files w' = unmap_writer (w_files w) wr) as [EH EF] by (destruct erase; simplify_eq; auto). rewrite EH, EF. split; [exact Hm|].
  assert (cell_at m None = Some cell) as Hca by (unfold cell_at; by rewrite Hb).
  destruct (sync_value_slot (w_heap w) (w_files w) (start_cfg c r gen pid) _ _ _ _ _ _ _ _ _ _ (wo_heap _ W) (wo_regs _ W _ _ Hr) S Hreg Hm Hca) as (off & Hu & _).
  unfold m_set. rewrite Hb. unfold set_cell. rewrite Hi. pose proof (sy_writer _ _ _ _ _ _ _ _ _ S) as Hw.
  rewrite (store_dead _ _ _ _ (mkWriter ino false) Hu); [|unfold unmap_writer; rewrite Hw; apply lookup_insert|reflexivity]. rewrite Hne. f_equal. apply body_id. exact Hb.
Qed.

(** A metric that was never published is just memory. *)
Lemma mrun_unmapped P fs m o fs' m' : mrun P fs m o fs' m' -> no_closures m -> fs' = fs /\ o <> RFault /\ no_closures m'.
Proof.
  assert (forall m n c c1, cell_at m n = Some c -> c_upd c1 = None -> no_closures m -> no_closures (put_cell m n c1)) as PN.
  { intros m0 n c c1 Hc Hn HN n' c' H. rewrite (cell_at_put _ _ _ _ _ Hc) in H. case_decide; [congruence|eauto]. }
  assert (forall fs c v, c_upd c = None -> store_cell fs c v = (ROk, fs, if go_eqb v (c_val c) then c else mkCell v None)) as SN.
  { intros fs0 c v E. unfold store_cell. rewrite E. destruct (go_eqb v (c_val c)); reflexivity. }
  induction 1 as [fs m o Ho|fs m k o fs' m' H1 H2 H IH|fs m n c v fs1 c1 o fs' m' Hc Ht HP Hs H IH|fs m n c v o o' fs1 c1 Hc Ht HP Hs H1 H2 H3]; intros HN.
  - auto.
  - apply IH. intros n c Hc. apply (HN n c). exact Hc.
  - rewrite SN in Hs by eauto. injection Hs as <- <-. apply IH. eapply PN; eauto. destruct (go_eqb _ _); [eauto|reflexivity].
  - rewrite SN in Hs by eauto. congruence.
Qed.

Lemma update_unmapped w mp m op mst o w' : w_ok w -> h_metrics (w_heap w) !! mp = Some m -> no_closures m -> wstep w (CUpdate mp op mst) o w' ->
  o <> RFault /\ w_files w' = w_files w /\ w_dead w' = false /\ exists m', h_metrics (w_heap w') !! mp = Some m' /\ no_closures m'.
Proof.
  intros W Hm HN S. inversion S as [| | | | | | | | | | | | | | |? ? ? ? m0 ? fs' m' Hd Hm0 Ha Hrun]; subst. assert (m0 = m) as -> by congruence.
  destruct (update_runs _ _ _ _ _ _ _ _ (ho_metrics _ (wo_heap _ W) _ _ Hm) Ha Hrun) as [R _]. destruct (mrun_unmapped _ _ _ _ _ _ R HN) as (E1 & E2 & E3).
  split_and!; auto.
  - cbn. destruct o; auto. contradiction.
  - exists m'. cbn. rewrite lookup_insert. auto.
Qed.

(** ** Other clients *)
Lemma other_frame w cid gen pid c r cl o w' : w_ok w -> synced w cid gen pid -> w_clients w !! cid = Some c -> w_regs w !! cl_reg c = Some r ->
  keeps w cid cl -> (forall mp op mst, cl = CUpdate mp op mst -> ~ registered r mp) -> wstep w cl o w' ->
  w_clients w' !! cid = Some c /\ w_regs w' !! cl_reg c = Some r /\ file_of w' c = file_of w c.
Proof.
  intros W Sy Hc Hr K Hu St. pose proof (synced_step _ _ _ _ _ _ _ W Sy K St) as Sy'. pose proof Sy as Sy0.
  destruct Sy as (c0 & r0 & wr & ino & pl & ad & am & buf & Hc0 & Hr0 & Hmap & Hwr & Hpath & S). assert (c0 = c) as -> by congruence. assert (r0 = r) as -> by congruence.
  clear Hc0 Hr0. specialize (K _ _ Hc Hr). pose proof (sy_buf _ _ _ _ _ _ _ _ _ S) as Hbuf.
  assert (REG : forall rid r0 o0 hp' r', w_regs w !! rid = Some r0 -> reg_next (w_heap w) r0 o0 hp' r' -> <[rid := r']> (w_regs w) !! cl_reg c = Some r).
  { intros rid r0 o0 hp' r' Hr0 N. destruct (decide (rid = cl_reg c)) as [->|Hne]; [|by rewrite lookup_insert_ne]. assert (r0 = r) as -> by congruence.
    rewrite lookup_insert. f_equal. apply (rn_frozen _ _ _ _ _ N Hmap). }
  unfold file_of.
  inversion St as [? rid Hd Hr0|? cid' name loc rid Hd Hc0 Hr0|? ip name insts desc d Hd Hip Hn|? mp ip m new Hd Hmp Hip Hcr|? rid mp r0 m ? r' Hd Hr0 Hm Ha
    |? rid ip r0 d Hd Hr0 Hip|? rid ip name insts r0 ? hp' r' Hd Hr0 Hip Ha|? rid mp ip name indom insts val t s u ord r0 ? hp' r' Hd Hr0 Hmp Hip Hv Hda Hord Ha
    |? cid' flag c0 r0 Hd Hc0 Hr0|? cid' gen' pid' c0 r0 wr' ino' s Hd Hc0 Hr0 Hwr0 Hino Hs|? cid' gen' pid' c0 r0 ino' s Hd Hc0 Hr0 Hino Hs|? cid' gen' pid' c0 r0 paths inodes Hd Hc0 Hr0 Hs
    |? cid' erase os c0 r0 Hd Hc0 Hr0 Hm|? cid' erase c0 r0 ? ? Hd Hc0 Hr0 Hm Hs|? cid' erase c0 r0 wr' fs' Hd Hc0 Hr0 Hm Hwr0 Hfs|? mp op mst m ? fs' m' Hd Hm Ha Hrun]; subst;
    cbn [w_clients w_regs w_paths w_files set_regs started]; auto.
  - split_and!; auto. rewrite lookup_insert_ne; congruence.
  - split_and!; auto. rewrite lookup_insert_ne; congruence.
  - split_and!; auto. eapply REG; [exact Hr0|]. eapply add_metric_next; [apply W|eapply wo_regs; eauto|exact Hm|exact Ha].
  - split_and!; auto. destruct (add_indom r0 ip d) as [r'|] eqn:E; [|exact Hr].
    eapply REG; [exact Hr0|]. eapply add_indom_next; [apply W|eapply wo_regs; eauto|exact Hip|exact E].
  - split_and!; auto. eapply REG; [exact Hr0|]. eapply add_indom_by_name_next; [apply W|eapply wo_regs; eauto|exact Hip|exact Ha].
  - split_and!; auto. eapply REG; [exact Hr0|]. eapply add_by_string_next; [apply W|eapply wo_regs; eauto|exact Hmp|exact Hip|exact Hv|exact Hda|exact Hord|exact Ha].
  - split_and!; auto. destruct (r_mapped r0) eqn:Em; [auto|]. rewrite lookup_insert_ne; [exact Hc|]. intros ->. assert (c0 = c) as -> by congruence. congruence.
  - destruct (K _ _ Hc0 Hr0) as (K1 & K2 & K3 & K4). rewrite !lookup_insert_ne by assumption. split_and!; auto. rewrite Hpath. cbn. rewrite lookup_insert_ne; [reflexivity|congruence].
  - destruct (K _ _ Hc0 Hr0) as (K1 & K2 & K3 & K4). rewrite !lookup_insert_ne by assumption. split_and!; auto. rewrite Hpath. cbn. rewrite lookup_insert_ne; [reflexivity|congruence].
  - destruct (K _ _ Hc0 Hr0) as (K1 & K2 & K3 & K4). split_and!; auto.
    destruct Hs as [E|[E|(i & b & Hi & _ & -> & ->)]]; simplify_eq; auto.
    + by rewrite lookup_delete_ne.
    + rewrite !lookup_insert_ne by assumption. rewrite Hpath. cbn. rewrite lookup_insert_ne; [reflexivity|congruence].
  - destruct (K _ Hc0) as (K1 & K2 & K3). unfold stopped in Hs. destruct (cl_wr c0) as [wr'|] eqn:Ewr.
    + destruct erase; injection Hs as <- <-; cbn [w_clients w_regs w_paths w_files]; rewrite ?lookup_insert_ne, ?lookup_delete_ne by assumption; split_and!; auto;
        rewrite Hpath; cbn; apply unmap_inode.
    + injection Hs as <- <-. cbn. rewrite lookup_insert_ne by assumption. auto.
  - destruct (K _ Hc0) as (K1 & K2 & K3). rewrite !lookup_insert_ne by assumption. split_and!; auto. rewrite Hpath. cbn. destruct Hfs as [->| ->]; [reflexivity|apply unmap_inode].
  - split_and!; auto. exact (update_other _ _ _ _ _ _ _ _ _ _ _ W Sy0 Hc Hr (Hu _ _ _ eq_refl) St).
Qed.

(** ** Histories that leave a started client alone *)
Lemma keeps_stable w cid gen pid c r cl o w' : w_ok w -> synced w cid gen pid -> w_clients w !! cid = Some c -> w_regs w !! cl_reg c = Some r ->
  keeps w cid cl -> wstep w cl o w' -> w_clients w' !! cid = Some c /\ w_regs w' !! cl_reg c = Some r.
Proof.
  intros W Sy Hc Hr K St. assert ((exists mp op mst, cl = CUpdate mp op mst) \/ forall mp op mst, cl <> CUpdate mp op mst) as [(mp & op & mst & ->)|N]
    by (destruct cl; (left; eauto; fail) || (right; congruence)).
  - inversion St; subst. auto.
  - assert (forall mp op mst, cl = CUpdate mp op mst -> ~ registered r mp) as NU by (intros mp op mst E; destruct (N _ _ _ E)).
    destruct (other_frame _ _ _ _ _ _ _ _ _ W Sy Hc Hr K NU St) as (A & B & _). auto.
Qed.
Lemma keeps_hist cid gen pid w tr w' c r : w_ok w -> synced w cid gen pid -> w_clients w !! cid = Some c -> w_regs w !! cl_reg c = Some r ->
  phist (fun w cl => keeps w cid cl) w tr w' -> w_ok w' /\ synced w' cid gen pid /\ w_clients w' !! cid = Some c /\ w_regs w' !! cl_reg c = Some r.
Proof.
  intros W S Hc Hr H. induction H as [w|w cl o w1 tr w' K St H IH]; [auto|].
  destruct (keeps_stable _ _ _ _ _ _ _ _ _ W S Hc Hr K St) as [Hc' Hr']. apply IH; auto; [eapply wstep_ok; eauto|]. eapply synced_step; eauto.
Qed.
Lemma start_step w cid c r gen pid w' : reachable w -> w_clients w !! cid = Some c -> w_regs w !! cl_reg c = Some r ->
  startable (w_heap w) r -> wstep w (CStart cid gen pid true) ROk w' ->
  w_ok w' /\ synced w' cid gen pid /\ w_regs w' !! cl_reg c = Some (set_mapped r true) /\
  exists wr, w_clients w' !! cid = Some (mkClient (cl_loc c) (cl_cluster c) (cl_flag c) (cl_reg c) (Some wr)).
Proof.
  intros R Hc Hr Hs St. pose proof (reachable_ok _ R) as W. split; [eapply wstep_ok; eauto|].
  inversion St as [| | | | | | | | |? ? ? ? c0 r0 wr ino s Hd Hc0 Hr0 Hw Hi SR| | | | | |]; subst. assert (c0 = c) as -> by congruence. assert (r0 = r) as -> by congruence.
  split; [by apply start_synced|]. split; [apply lookup_insert|]. exists wr. apply lookup_insert.
Qed.
(** Start followed by calls that leave the client alone. *)
Lemma start_hist w cid c r gen pid w1 tr w2 : reachable w -> w_clients w !! cid = Some c -> w_regs w !! cl_reg c = Some r -> startable (w_heap w) r ->
  wstep w (CStart cid gen pid true) ROk w1 -> phist (fun w cl => keeps w cid cl) w1 tr w2 ->
  w_ok w2 /\ synced w2 cid gen pid /\ w_regs w2 !! cl_reg c = Some (set_mapped r true) /\
  exists wr, w_clients w2 !! cid = Some (mkClient (cl_loc c) (cl_cluster c) (cl_flag c) (cl_reg c) (Some wr)).
Proof.
  intros R Hc Hr Hs St H. destruct (start_step _ _ _ _ _ _ _ R Hc Hr Hs St) as (W1 & S1 & Hr1 & wr & Hc1).
  destruct (keeps_hist cid gen pid _ _ _ _ _ W1 S1 Hc1 Hr1 H) as (W2 & S2 & Hc2 & Hr2). split_and!; eauto.
Qed.
Lemma updates_keep cid w tr w' : phist (fun _ cl => exists mp op mst, cl = CUpdate mp op mst /\ op_fits op) w tr w' -> phist (fun w cl => keeps w cid cl) w tr w'.
Proof. induction 1 as [|w c o w1 tr w' (mp & op & mst & -> & Hf) S H IH]; econstructor; eauto. intros c r Hc Hr. cbn. auto. Qed.
Lemma update_no_fault w cid gen pid c r mp op mst o w' : w_ok w -> synced w cid gen pid -> w_clients w !! cid = Some c -> w_regs w !! cl_reg c = Some r ->
  registered r mp -> op_fits op -> wstep w (CUpdate mp op mst) o w' -> o <> RFault.
Proof.
  intros W (c' & r' & wr & ino & pl & ad & am & buf & Hc & Hr & Hmap & Hwr & Hpath & S) Hc' Hr' Hreg Hf Su.
  assert (c' = c) as -> by congruence. assert (r' = r) as -> by congruence. pose proof (wo_heap _ W) as Hh. pose proof (wo_regs _ W _ _ Hr) as Hro.
  inversion Su as [| | | | | | | | | | | | | | |? ? ? ? m ? fs' m' Hd Hm Ha Hrun]; subst. pose proof (ho_metrics _ Hh _ _ Hm) as Hok.
  destruct (update_runs _ _ _ _ _ _ _ _ Hok Ha Hrun) as [_ R]. specialize (R Hf).
  destruct (sync_run _ _ _ _ _ _ R (w_heap w) (start_cfg c r gen pid) wr ino pl ad am buf mp) as (F & _); auto. exact (wo_inj _ W).
Qed.
Lemma reachable_hist w : reachable w -> exists tr, hist w_init tr w.
Proof.
  unfold reachable. generalize w_init. intros w0 R. induction R as [w0|w0 w1 w2 (c & o & S) R (tr & IH)]; [exists []; constructor|]. exists ((w0, c, o) :: tr). econstructor; eauto.
Qed.
Lemma is_started_snoc cid tr x : is_started cid (tr ++ [x]) = life_step cid (is_started cid tr) x.
Proof. unfold is_started. by rewrite foldl_app. Qed.
Lemma stop_possible w cid gen pid erase : synced w cid gen pid -> w_dead w = false -> exists w', wstep w (CStop cid erase true) ROk w' /\ w_dead w' = false.
Proof.
  intros (c & r & wr & ino & pl & ad & am & buf & Hc & Hr & Hmap & Hwr & Hpath & S) Hd.
  exists (stopped w cid c r erase).2. assert ((stopped w cid c r erase).1 = ROk /\ w_dead (stopped w cid c r erase).2 = w_dead w) as [E1 E2].
  { unfold stopped. rewrite Hwr. destruct erase; [rewrite Hpath|]; auto. }
  split; [|congruence]. eapply ws_stop; eauto. destruct (stopped w cid c r erase) as [o w']. cbn in *. by subst.
Qed.
Lemma restart_possible w cid gen pid erase gen' pid' : reachable w -> synced w cid gen pid -> w_dead w = false ->
  exists w1 c r w2, wstep w (CStop cid erase true) ROk w1 /\ w_clients w1 !! cid = Some c /\ w_regs w !! cl_reg c = Some r /\
    w_regs w1 !! cl_reg c = Some (set_mapped r false) /\ startable (w_heap w1) (set_mapped r false) /\ wstep w1 (CStart cid gen' pid' true) ROk w2.
Proof.
  intros R (c & r & wr & ino & pl & ad & am & buf & Hc & Hr & Hmap & Hwr & Hpath & S) Hd. set (w1 := (stopped w cid c r erase).2).
  assert (stopped w cid c r erase = (ROk, w1) /\ w_dead w1 = false /\ w_heap w1 = w_heap w /\ w_regs w1 = <[cl_reg c := set_mapped r false]> (w_regs w) /\
    w_clients w1 = <[cid := mkClient (cl_loc c) (cl_cluster c) (cl_flag c) (cl_reg c) None]> (w_clients w)) as (E & Hd1 & Hh & Hrs & Hcs).
  { unfold w1, stopped. rewrite Hwr. destruct erase; [rewrite Hpath|]; auto. }
  clearbody w1. assert (wstep w (CStop cid erase true) ROk w1) as St by (eapply ws_stop; eauto).
  assert (reachable w1) as R1 by (eapply rtc_r; [exact R|]; by exists (CStop cid erase true), ROk).
  pose proof (sy_start _ _ _ _ _ _ _ _ _ S) as Hst. cbn in Hst. apply (startable_mapped _ _ false) in Hst. rewrite <- Hh in Hst.
  set (c1 := mkClient (cl_loc c) (cl_cluster c) (cl_flag c) (cl_reg c) None) in *.
  assert (w_clients w1 !! cid = Some c1) as Hc1 by (rewrite Hcs; apply lookup_insert).
  assert (w_regs w1 !! cl_reg c1 = Some (set_mapped r false)) as Hr1 by (rewrite Hrs; apply lookup_insert).
  destruct (start_possible w1 cid c1 (set_mapped r false) gen' pid' (fresh (dom (f_writers (w_files w1)))) (fresh (dom (f_inodes (w_files w1))))) as (s & S2 & _); auto.
  - by apply reachable_ok.
  - apply not_elem_of_dom, is_fresh.
  - apply not_elem_of_dom, is_fresh.
  - exists w1, c1, r. eexists. split_and!; eauto.
Qed.
Lemma stop_unmapped w cid erase w' : wstep w (CStop cid erase true) ROk w' -> w_dead w' = false /\
  exists c r, w_clients w' !! cid = Some c /\ w_regs w' !! cl_reg c = Some r /\ r_mapped r = false.
Proof.
  intros St. inversion St as [| | | | | | | | | | | |? ? ? ? c0 r0 Hd Hc0 Hr0 Hm|? ? ? c0 r0 ? ? Hd Hc0 Hr0 Hm Hs| |]; subst.
  unfold stopped in Hs. destruct (cl_wr c0); [|discriminate]. destruct erase; [destruct (w_paths w !! cl_loc c0); [|discriminate]|]; injection Hs as <-; cbn; (split; [exact Hd|]);
    eexists _, _; rewrite lookup_insert; (split; [reflexivity|]); cbn; rewrite lookup_insert; split; reflexivity.
Qed.
