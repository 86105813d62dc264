(** Concurrent registration: if different calls bring in different names, and strings
    are counted under one lock only, any interleaving gives what the calls give one
    after the other, in any order. *)
From Verif Require Import Base BaseFacts GoVal MetricType Indom Metrics Registry Prog RegInv RegFacts Client World WorldInv Locks LocksLive RegConc.
From stdpp Require Import relations.
Local Open Scope Z_scope.

(** ** Specification *)
(** What a call brings in, seen from the registry [r0] at the start: nothing if a mapping
    is active or the name is taken already. *)
Definition new_metric (hp : heap) (r0 : registry) (c : rcall) : option (nat * metric * option indom) :=
  match c with
  | RegM mp => m ← h_metrics hp !! mp;
      if r_mapped r0 || HasMetric r0 (md_name (m_desc m)) then None else Some (mp, m, m_indom m ≫= fun ip => h_indoms hp !! ip)
  | RegD _ => None
  end.
Definition new_domain (hp : heap) (r0 : registry) (c : rcall) : option (nat * indom) :=
  match c with
  | RegM mp => m ← h_metrics hp !! mp;
      if r_mapped r0 || HasMetric r0 (md_name (m_desc m)) then None
      else ip ← m_indom m; d ← h_indoms hp !! ip; if HasInstanceDomain r0 (id_name d) then None else Some (ip, d)
  | RegD ip => d ← h_indoms hp !! ip; if r_mapped r0 || HasInstanceDomain r0 (id_name d) then None else Some (ip, d)
  end.
(** The call as one of World.v. *)
Definition reg_call (rid : nat) (c : rcall) : call := match c with RegM mp => CAddMetric rid mp | RegD ip => CAddIndom rid ip end.
(** The objects exist (they are made by the library's constructors, World.v). *)
Definition has_object (hp : heap) (c : rcall) : Prop :=
  match c with RegM mp => exists m, h_metrics hp !! mp = Some m | RegD ip => exists d, h_indoms hp !! ip = Some d end.
(** Bringing in different names; counting strings under one of the locks only. *)
Record separate (hp : heap) (r0 : registry) (cs : list rcall) : Prop := {
  sp_mets : NoDup (map (fun x : nat * metric * option indom => md_name (m_desc x.1.2)) (omap (new_metric hp r0) cs));
  sp_doms : NoDup (map (fun x : nat * indom => id_name x.2) (omap (new_domain hp r0) cs));
  sp_strs : (forall c ip d, c ∈ cs -> new_domain hp r0 c = Some (ip, d) -> id_short d = [] /\ id_long d = []) \/
            (forall c mp m dom, c ∈ cs -> new_metric hp r0 c = Some (mp, m, dom) -> md_type (m_desc m) <> StringType /\ md_short (m_desc m) = [] /\ md_long (m_desc m) = []) }.

(** ** Effects *)
Inductive eff := EDom (n : gostring) (ip : nat) | EMet (n : gostring) (mp : nat) | ECnt (c : rcnt) (z : Z) | EV2.

Definition amount (c : rcnt) (e : eff) : Z := match e with ECnt c' z => if decide (c' = c) then z else 0 | _ => 0 end.
Definition esum (c : rcnt) (l : list eff) : Z := sumZ (map (amount c) l).

Record reg_is (r0 : registry) (l : list eff) (r : registry) : Prop := {
  ri_doms : forall n ip, r_indoms r !! n = Some ip <-> r_indoms r0 !! n = Some ip \/ EDom n ip ∈ l;
  ri_mets : forall n mp, r_metrics r !! n = Some mp <-> r_metrics r0 !! n = Some mp \/ EMet n mp ∈ l;
  ri_cnt : forall c, cnt c r = cnt c r0 + esum c l;
  ri_v2 : r_version2 r = true <-> r_version2 r0 = true \/ EV2 ∈ l;
  ri_mapped : r_mapped r = r_mapped r0 }.

Lemma sumZ_app a b : sumZ (a ++ b) = sumZ a + sumZ b.
Proof. induction a as [|x a IH]; [done|]. change (sumZ ((x :: a) ++ b)) with (x + sumZ (a ++ b)). change (sumZ (x :: a)) with (x + sumZ a). lia. Qed.
Lemma esum_cons c e l : esum c (e :: l) = amount c e + esum c l.
Proof. done. Qed.
Lemma esum_app c a b : esum c (a ++ b) = esum c a + esum c b.
Proof. unfold esum. by rewrite map_app, sumZ_app. Qed.
Lemma esum_perm c a b : a ≡ₚ b -> esum c a = esum c b.
Proof. induction 1; rewrite ?esum_cons; lia. Qed.
Lemma reg_is_nil r0 : reg_is r0 [] r0.
Proof. split; intros; try (rewrite elem_of_nil; tauto); [|done]. unfold esum. cbn. lia. Qed.
Lemma reg_is_perm r0 l l' r : l ≡ₚ l' -> reg_is r0 l r -> reg_is r0 l' r.
Proof. intros P []. split; intros; rewrite <- ?(esum_perm _ _ _ P), <- ?P; auto. Qed.
Lemma reg_is_eq r0 l r r' : reg_is r0 l r -> reg_is r0 l r' -> r = r'.
Proof.
  intros A B. destruct r as [i1 m1 a1 b1 c1 d1 e1], r' as [i2 m2 a2 b2 c2 d2 e2].
  assert (i1 = i2) as <-. { apply map_eq. intros n. apply option_eq. intros ip. pose proof (ri_doms _ _ _ A n ip) as X. pose proof (ri_doms _ _ _ B n ip) as Y. cbn in *. tauto. }
  assert (m1 = m2) as <-. { apply map_eq. intros n. apply option_eq. intros ip. pose proof (ri_mets _ _ _ A n ip) as X. pose proof (ri_mets _ _ _ B n ip) as Y. cbn in *. tauto. }
  assert (e1 = e2) as <-. { pose proof (ri_v2 _ _ _ A) as X. pose proof (ri_v2 _ _ _ B) as Y. cbn in *. apply eq_true_iff_eq. tauto. }
  pose proof (ri_cnt _ _ _ A NInst) as X1. pose proof (ri_cnt _ _ _ B NInst) as Y1. pose proof (ri_cnt _ _ _ A NVal) as X2. pose proof (ri_cnt _ _ _ B NVal) as Y2.
  pose proof (ri_cnt _ _ _ A NStr) as X3. pose proof (ri_cnt _ _ _ B NStr) as Y3. pose proof (ri_mapped _ _ _ A) as X4. pose proof (ri_mapped _ _ _ B) as Y4. cbn in *. f_equal; congruence.
Qed.

Definition mname (e : eff) : option gostring := match e with EMet n _ => Some n | _ => None end.
Definition dname (e : eff) : option gostring := match e with EDom n _ => Some n | _ => None end.
(** Effects that can be put together. *)
Record fresh (r0 : registry) (A : list eff) : Prop := {
  fr_m : NoDup (omap mname A); fr_d : NoDup (omap dname A);
  fr_m0 : forall n mp, EMet n mp ∈ A -> r_metrics r0 !! n = None;
  fr_d0 : forall n ip, EDom n ip ∈ A -> r_indoms r0 !! n = None;
  fr_map : r_mapped r0 = true -> A = [] }.
Lemma fresh_perm r0 A B : A ≡ₚ B -> fresh r0 A -> fresh r0 B.
Proof. 
  intros P [F1 F2 F3 F4 F5]. split.
  - eapply NoDup_Permutation_proper; [apply omap_perm; symmetry; exact P|done].
  - eapply NoDup_Permutation_proper; [apply omap_perm; symmetry; exact P|done].
  - intros n mp H. rewrite <- P in H. eauto.
  - intros n mp H. rewrite <- P in H. eauto.
  - intros H. rewrite (F5 H) in P. by apply Permutation_nil.
 Qed.
Lemma fresh_met r0 n mp mp' a b c : fresh r0 (a ++ EMet n mp :: b ++ c) -> EMet n mp' ∉ a.
Proof.
  intros F H. pose proof (fr_m _ _ F) as N. rewrite omap_app in N. apply NoDup_app in N as (_ & N & _). apply (N n).
  - apply elem_of_list_omap. exists (EMet n mp'). done.
  - cbn. left.
Qed.
Lemma fresh_dom r0 n mp mp' a b c : fresh r0 (a ++ EDom n mp :: b ++ c) -> EDom n mp' ∉ a.
Proof.
  intros F H. pose proof (fr_d _ _ F) as N. rewrite omap_app in N. apply NoDup_app in N as (_ & N & _). apply (N n).
  - apply elem_of_list_omap. exists (EDom n mp'). done.
  - cbn. left.
Qed.
Lemma fresh_met_in r0 n mp mp' a l c : fresh r0 (a ++ l ++ c) -> EMet n mp ∈ l -> EMet n mp' ∉ a.
Proof.
  intros F Hl. apply elem_of_list_split in Hl as (l1 & l2 & ->). intros H. apply (fresh_met r0 n mp mp' (a ++ l1) l2 c); [|apply elem_of_app; by left].
  by rewrite <- !app_assoc in *.
Qed.
Lemma fresh_dom_in r0 n mp mp' a l c : fresh r0 (a ++ l ++ c) -> EDom n mp ∈ l -> EDom n mp' ∉ a.
Proof.
  intros F Hl. apply elem_of_list_split in Hl as (l1 & l2 & ->). intros H. apply (fresh_dom r0 n mp mp' (a ++ l1) l2 c); [|apply elem_of_app; by left].
  by rewrite <- !app_assoc in *.
Qed.

Local Ltac skip_eff := rewrite ?elem_of_cons; split; [intros [?|?]; auto|intros [?|[?|?]]; [auto|discriminate|auto]].

Section prims.
  Context (r0 : registry) (l : list eff) (r : registry) (R : reg_is r0 l r).
  Lemma is_hasm n : HasMetric r0 n = true \/ (forall mp, EMet n mp ∉ l) -> HasMetric r n = HasMetric r0 n.
  Proof.
    intros H. unfold HasMetric in *. apply bool_decide_ext. split.
    - intros [mp Hm]. apply (ri_mets _ _ _ R) in Hm as [Hm|Hm]; [eauto|]. destruct H as [H|H]; [by apply bool_decide_eq_true in H|by destruct (H mp)].
    - intros [mp Hm]. exists mp. apply (ri_mets _ _ _ R). by left.
  Qed.
  Lemma is_hasd n : HasInstanceDomain r0 n = true \/ (forall mp, EDom n mp ∉ l) -> HasInstanceDomain r n = HasInstanceDomain r0 n.
  Proof.
    intros H. unfold HasInstanceDomain in *. apply bool_decide_ext. split.
    - intros [mp Hm]. apply (ri_doms _ _ _ R) in Hm as [Hm|Hm]; [eauto|]. destruct H as [H|H]; [by apply bool_decide_eq_true in H|by destruct (H mp)].
    - intros [mp Hm]. exists mp. apply (ri_doms _ _ _ R). by left.
  Qed.
  Lemma is_put_met n mp : r_metrics r0 !! n = None -> (forall mp', EMet n mp' ∉ l) -> reg_is r0 (EMet n mp :: l) (put_met n mp r).
  Proof.
    intros H0 Hl. destruct R as [Rd Rm Rc Rv Rp]. split; [intros n0 ip|intros n0 ip|intros c|..]; cbn [put_met put_dom set_v2 r_indoms r_metrics r_version2 r_mapped]; [rewrite Rd; skip_eff| | |rewrite Rv; skip_eff|done].
    - rewrite elem_of_cons. destruct (decide (n0 = n)) as [->|N]; [rewrite lookup_insert|rewrite lookup_insert_ne by done; rewrite Rm].
      + rewrite H0. split; [intros [= <-]; auto|]. intros [H|[[= <-]|H]]; [done|done|by destruct (Hl ip)].
      + split; [intros [H|H]; auto|]. intros [H|[[= E1 E2]|H]]; [auto|by destruct N|auto].
    - rewrite esum_cons. specialize (Rc c). destruct c; cbn in *; lia.
  Qed.
  Lemma is_put_dom n mp : r_indoms r0 !! n = None -> (forall mp', EDom n mp' ∉ l) -> reg_is r0 (EDom n mp :: l) (put_dom n mp r).
  Proof.
    intros H0 Hl. destruct R as [Rd Rm Rc Rv Rp]. split; [intros n0 ip|intros n0 ip|intros c|..]; cbn [put_met put_dom set_v2 r_indoms r_metrics r_version2 r_mapped]; [|rewrite Rm; skip_eff| |rewrite Rv; skip_eff|done].
    - rewrite elem_of_cons. destruct (decide (n0 = n)) as [->|N]; [rewrite lookup_insert|rewrite lookup_insert_ne by done; rewrite Rd].
      + rewrite H0. split; [intros [= <-]; auto|]. intros [H|[[= <-]|H]]; [done|done|by destruct (Hl ip)].
      + split; [intros [H|H]; auto|]. intros [H|[[= E1 E2]|H]]; [auto|by destruct N|auto].
    - rewrite esum_cons. specialize (Rc c). destruct c; cbn in *; lia.
  Qed.
  Lemma is_add c z : reg_is r0 (ECnt c z :: l) (set_cnt c (cnt c r + z) r).
  Proof.
    destruct R as [Rd Rm Rc Rv Rp]. split; [intros n0 ip|intros n0 ip|intros c0|..].
    - replace (r_indoms _) with (r_indoms r) by by destruct c. rewrite Rd; skip_eff.
    - replace (r_metrics _) with (r_metrics r) by by destruct c. rewrite Rm; skip_eff.
    - rewrite esum_cons. pose proof (Rc c0) as R0. cbn [amount]. case_decide as E; [subst c0; destruct c; cbn in *; lia|]. destruct c, c0; try congruence; cbn in *; lia.
    - replace (r_version2 _) with (r_version2 r) at 1 by by destruct c. rewrite Rv; skip_eff.
    - by destruct c.
  Qed.
  Lemma is_set_v2 : reg_is r0 (EV2 :: l) (set_v2 r).
  Proof.
    destruct R as [Rd Rm Rc Rv Rp]. split; [intros n0 ip|intros n0 ip|intros c|..]; cbn [put_met put_dom set_v2 r_indoms r_metrics r_version2 r_mapped]; [rewrite Rd; skip_eff|rewrite Rm; skip_eff| |rewrite elem_of_cons; tauto|done].
    rewrite esum_cons. specialize (Rc c). destruct c; cbn in *; lia.
  Qed.
  Lemma is_v2 : r_version2 r = true -> reg_is r0 (EV2 :: l) r.
  Proof. intros H. pose proof is_set_v2 as K. replace (set_v2 r) with r in K; [done|]. destruct r; cbn in *. by subst. Qed.
  Lemma is_v2_if b : reg_is r0 ((if b : bool then [EV2] else []) ++ l) (mkReg (r_indoms r) (r_metrics r) (r_instanceCount r) (r_valueCount r) (r_stringcount r) (r_mapped r) (r_version2 r || b)).
  Proof. destruct b; cbn [app]; rewrite ?orb_true_r, ?orb_false_r; [apply is_set_v2|]. by destruct r. Qed.
End prims.

Section calls.
  Context (hp : heap) (r0 : registry).
  Definition text_eff (s : gostring) : list eff := if nonempty s then [ECnt NStr 1] else [].
  Definition deffs (x : nat * indom) : list eff :=
    EDom (id_name x.2) x.1 :: ECnt NInst (instance_count x.2) :: (if has_long_instance x.2 then [EV2] else []) ++ text_eff (id_short x.2) ++ text_eff (id_long x.2).
  Definition meffs (x : nat * metric * option indom) : list eff :=
    let e := m_desc x.1.2 in
    EMet (md_name e) x.1.1 :: (if MaxV1NameLength <? zlen (md_name e) then [EV2] else []) ++ ECnt NVal (metric_values x.2) ::
      (if md_type e =? StringType then [ECnt NStr (metric_values x.2)] else []) ++ text_eff (md_short e) ++ text_eff (md_long e).
  Definition effs (c : rcall) : list eff := from_option deffs [] (new_domain hp r0 c) ++ from_option meffs [] (new_metric hp r0 c).
  Definition outc (c : rcall) : outcome := match c with RegM _ => if new_metric hp r0 c then ROk else RErr | RegD _ => if new_domain hp r0 c then ROk else RErr end.

  Lemma omap_none {A B} (f : A -> option B) l : (forall x, x ∈ l -> f x = None) -> omap f l = [].
  Proof. induction l as [|x l IH]; intros H; [done|]. cbn. rewrite (H x ltac:(left)). apply IH. intros. apply H. by right. Qed.
  Lemma text_eff_in s e : e ∈ text_eff s -> e = ECnt NStr 1.
  Proof. unfold text_eff. destruct (nonempty s); [by rewrite elem_of_list_singleton|by rewrite elem_of_nil]. Qed.
  Lemma mname_deffs x : omap mname (deffs x) = [].
  Proof. apply omap_none. intros e. unfold deffs. rewrite !elem_of_cons, !elem_of_app. intros [->|[->|[H|[H|H]]]]; try done; [|by apply text_eff_in in H as ->..]. destruct (has_long_instance x.2); [by apply elem_of_list_singleton in H as ->|by apply elem_of_nil in H]. Qed.
  Lemma dname_meffs x : omap dname (meffs x) = [].
  Proof.
    apply omap_none. intros e. unfold meffs. rewrite !elem_of_cons, !elem_of_app, !elem_of_cons, !elem_of_app. intros [->|[H|[->|[H|[H|H]]]]]; try done; [..|by apply text_eff_in in H as ->|by apply text_eff_in in H as ->].
    - destruct (_ <? _); [by apply elem_of_list_singleton in H as ->|by apply elem_of_nil in H].
    - destruct (_ =? _); [by apply elem_of_list_singleton in H as ->|by apply elem_of_nil in H].
  Qed.
  Lemma omap_text (f : eff -> option gostring) s : f (ECnt NStr 1) = None -> omap f (text_eff s) = [].
  Proof. intros H. apply omap_none. intros x ->%text_eff_in. done. Qed.
  Lemma dname_deffs x : omap dname (deffs x) = [id_name x.2].
  Proof. unfold deffs. change (omap dname ?l) with (id_name x.2 :: omap dname (tail (tail l))). cbn [tail]. rewrite !omap_app, !omap_text by done. by destruct (has_long_instance x.2). Qed.
  Lemma mname_meffs x : omap mname (meffs x) = [md_name (m_desc x.1.2)].
  Proof. unfold meffs. change (omap mname ?l) with (md_name (m_desc x.1.2) :: omap mname (tail l)). cbn [tail]. f_equal. rewrite omap_app. destruct (_ <? _); cbn [app]; (change (omap mname (ECnt NVal _ :: ?l)) with (omap mname l); rewrite !omap_app, !omap_text by done; by destruct (_ =? _)). Qed.
  Lemma mname_effs c : omap mname (effs c) = from_option (fun x => [md_name (m_desc x.1.2)]) [] (new_metric hp r0 c).
  Proof. unfold effs. rewrite omap_app. destruct (new_domain hp r0 c); cbn [from_option]; rewrite ?mname_deffs; (destruct (new_metric hp r0 c); cbn [from_option]; [apply mname_meffs|done]). Qed.
  Lemma dname_effs c : omap dname (effs c) = from_option (fun x => [id_name x.2]) [] (new_domain hp r0 c).
  Proof. unfold effs. rewrite omap_app. destruct (new_domain hp r0 c); cbn [from_option]; rewrite ?dname_deffs; (destruct (new_metric hp r0 c); cbn [from_option]; [rewrite dname_meffs|]; done). Qed.
  Lemma mnames cs : omap mname (concat (effs <$> cs)) = map (fun x : nat * metric * option indom => md_name (m_desc x.1.2)) (omap (new_metric hp r0) cs).
  Proof. induction cs as [|c cs IH]; [done|]. cbn. rewrite omap_app, mname_effs, IH. by destruct (new_metric hp r0 c). Qed.
  Lemma dnames cs : omap dname (concat (effs <$> cs)) = map (fun x : nat * indom => id_name x.2) (omap (new_domain hp r0) cs).
  Proof. induction cs as [|c cs IH]; [done|]. cbn. rewrite omap_app, dname_effs, IH. by destruct (new_domain hp r0 c). Qed.

  Lemma new_metric_free c x : new_metric hp r0 c = Some x -> r_metrics r0 !! md_name (m_desc x.1.2) = None.
  Proof.
    destruct c as [mp|]; [|done]. cbn. destruct (h_metrics hp !! mp) as [m|]; [|done]. cbn. destruct (r_mapped r0); [done|]. cbn. destruct (HasMetric r0 _) eqn:E; [done|]. intros [= <-]. by apply not_has_m.
  Qed.
  Lemma new_domain_free c x : new_domain hp r0 c = Some x -> r_indoms r0 !! id_name x.2 = None.
  Proof.
    destruct c as [mp|ip]; cbn.
    - destruct (h_metrics hp !! mp) as [m|]; [|done]. cbn. destruct (_ || _); [done|]. destruct (m_indom m) as [ip|]; [|done]. cbn. destruct (h_indoms hp !! ip) as [d|]; [|done]. cbn.
      destruct (HasInstanceDomain r0 _) eqn:E; [done|]. intros [= <-]. by apply not_has.
    - destruct (h_indoms hp !! ip) as [d|]; [|done]. cbn. destruct (r_mapped r0); [done|]. cbn. destruct (HasInstanceDomain r0 _) eqn:E; [done|]. intros [= <-]. by apply not_has.
  Qed.
  Lemma mapped_effs cs : r_mapped r0 = true -> concat (effs <$> cs) = [].
  Proof.
    intros H. induction cs as [|c cs IH]; [done|]. cbn. rewrite IH, app_nil_r. unfold effs, new_domain, new_metric. destruct c as [mp|ip].
    - destruct (h_metrics hp !! mp) as [m|]; [|done]. cbn [mbind option_bind]. by rewrite H.
    - destruct (h_indoms hp !! ip) as [m|]; [|done]. cbn [mbind option_bind]. by rewrite H.
  Qed.
  Lemma fresh_calls cs : separate hp r0 cs -> fresh r0 (concat (effs <$> cs)).
  Proof.
    intros [S1 S2 _]. split; [by rewrite mnames|by rewrite dnames|..]; [..|intros H; apply mapped_effs; done].
    - intros n mp H. assert (n ∈ omap mname (concat (effs <$> cs))) as Hn by (apply elem_of_list_omap; by exists (EMet n mp)). rewrite mnames in Hn.
      apply elem_of_list_In, in_map_iff in Hn as (x & <- & Hx). apply elem_of_list_In, elem_of_list_omap in Hx as (c & _ & Hx). by apply new_metric_free in Hx.
    - intros n mp H. assert (n ∈ omap dname (concat (effs <$> cs))) as Hn by (apply elem_of_list_omap; by exists (EDom n mp)). rewrite dnames in Hn.
      apply elem_of_list_In, in_map_iff in Hn as (x & <- & Hx). apply elem_of_list_In, elem_of_list_omap in Hx as (c & _ & Hx). by apply new_domain_free in Hx.
  Qed.
End calls.

(** ** What a goroutine still has to do *)
Inductive hold := HN | HW (x : rlk) | HR (x : rlk).

Section will.
  (** [gs]: the lock under which strings are counted *)
  Context (r0 : registry) (gs : rlk).
  Definition gd (c : rcnt) : rlk := match c with NInst => KDom | NVal => KMet | NStr => gs end.
  (** Holding [L], with nobody else touching its names, [p] has the effects [l] and
      returns [o]. *)
  Inductive will : hold -> rprog -> list eff -> outcome -> Prop :=
  | wi_ret o : will HN (GRet o) [] o
  | wi_lock x k l o : will (HW x) k l o -> will HN (GLock x k) l o
  | wi_unlock x k l o : will HN k l o -> will (HW x) (GUnlock x k) l o
  | wi_rlock x k l o : will (HR x) k l o -> will HN (GRLock x k) l o
  | wi_runlock x k l o : will HN k l o -> will (HR x) (GRUnlock x k) l o
  | wi_mapped L k l o : will L (k (r_mapped r0)) l o -> will L (GMapped k) l o
  | wi_hasm L n k l o : HasMetric r0 n = true \/ (exists mp, EMet n mp ∈ l) -> will L (k (HasMetric r0 n)) l o -> will L (GHasM n k) l o
  | wi_hasd L n k l o : HasInstanceDomain r0 n = true \/ (exists ip, EDom n ip ∈ l) \/ r_mapped r0 = true -> will L (k (HasInstanceDomain r0 n)) l o -> will L (GHasD n k) l o
  | wi_putm L n mp k l o : will L k l o -> will L (GPutM n mp k) (EMet n mp :: l) o
  | wi_putd L n ip k l o : will L k l o -> will L (GPutD n ip k) (EDom n ip :: l) o
  | wi_add c z k l o : will (HW (gd c)) k l o -> will (HW (gd c)) (GAdd c z k) (ECnt c z :: l) o
  | wi_v2_no L k p l o : (forall b, k b = p) -> will L p l o -> will L (GV2 k) l o
  | wi_v2_yes L k p l o : k true = p -> k false = GSetV2 p -> will L p l o -> will L (GV2 k) (EV2 :: l) o
  | wi_setv2 L p l o : will L p l o -> will L (GSetV2 p) (EV2 :: l) o.

  Lemma will_v2 L b k l o : will L k l o -> will L (g_v2 b k) ((if b then [EV2] else []) ++ l) o.
  Proof. unfold g_v2. intros H. destruct b; cbn [app]; [by eapply wi_v2_yes|]. eapply wi_v2_no; [|exact H]. by intros []. Qed.
  Lemma will_text s k l o : nonempty s = false \/ True -> will (HW gs) k l o -> will (HW gs) (g_text s k) (text_eff s ++ l) o.
  Proof. intros _ H. unfold g_text, text_eff. destruct (nonempty s); [|done]. by apply (wi_add NStr). Qed.
  Lemma will_no_text L s k l o : s = [] -> will L k l o -> will L (g_text s k) (text_eff s ++ l) o.
  Proof. intros -> H. done. Qed.
  Lemma will_has_indom n k l o : HasInstanceDomain r0 n = true \/ (exists ip, EDom n ip ∈ l) \/ r_mapped r0 = true -> will HN (k (HasInstanceDomain r0 n)) l o -> will HN (g_has_indom n k) l o.
  Proof. intros H1 H2. unfold g_has_indom. apply wi_rlock, wi_hasd; [done|]. by apply wi_runlock. Qed.
  Lemma will_has_metric n k l o : HasMetric r0 n = true \/ (exists ip, EMet n ip ∈ l) -> will HN (k (HasMetric r0 n)) l o -> will HN (g_has_metric n k) l o.
  Proof. intros H1 H2. unfold g_has_metric. apply wi_rlock, wi_hasm; [done|]. by apply wi_runlock. Qed.

  Lemma will_add_raw mp m dom : gs = KMet \/ (md_type (m_desc m) <> StringType /\ md_short (m_desc m) = [] /\ md_long (m_desc m) = []) ->
    will HN (g_add_raw mp m dom) (meffs (mp, m, dom)) ROk.
  Proof.
    intros H. unfold g_add_raw, meffs. cbn [fst snd]. apply wi_lock, wi_putm, will_v2, (wi_add NVal). cbn [gd].
    assert (will (HW KMet) (GUnlock KMet (GRet ROk)) [] ROk) as K by apply wi_unlock, wi_ret.
    assert (will (HW KMet) (g_text (md_short (m_desc m)) (g_text (md_long (m_desc m)) (GUnlock KMet (GRet ROk)))) (text_eff (md_short (m_desc m)) ++ text_eff (md_long (m_desc m))) ROk) as K1.
    { rewrite <- (app_nil_r (text_eff (md_long _))). destruct H as [E|(_ & E1 & E2)]; [rewrite <- E in *; apply will_text; [auto|]; by apply will_text; [auto|]|].
      apply will_no_text; [done|]. by apply will_no_text. }
    destruct (Z.eqb_spec (md_type (m_desc m)) StringType) as [E|E]; [|exact K1]. destruct H as [Eg|[N _]]; [|done]. cbn [app]. rewrite <- Eg in *. by apply (wi_add NStr).
  Qed.
  Lemma will_add_indom ip d kok kerr l o : HasInstanceDomain r0 (id_name d) = false -> r_mapped r0 = false -> gs = KDom \/ (id_short d = [] /\ id_long d = []) ->
    will HN kok l o -> will HN (g_add_indom ip d kok kerr) (deffs (ip, d) ++ l) o.
  Proof.
    intros Hn Hm H K. unfold g_add_indom, deffs. cbn [fst snd app]. apply will_has_indom; [right; left; exists ip; left|]. rewrite Hn. apply wi_lock, wi_mapped. rewrite Hm.
    apply wi_putd, (wi_add NInst). cbn [gd]. rewrite <- !app_assoc. apply will_v2.
    assert (will (HW KDom) (GUnlock KDom kok) l o) as K1 by by apply wi_unlock.
    destruct H as [E|[E1 E2]]; [rewrite <- E in *; apply will_text; [auto|]; by apply will_text; [auto|]|]. apply will_no_text; [done|]. by apply will_no_text.
  Qed.

  Definition strs_ok (hp : heap) (c : rcall) : Prop :=
    (gs = KDom \/ forall ip d, new_domain hp r0 c = Some (ip, d) -> id_short d = [] /\ id_long d = []) /\
    (gs = KMet \/ forall mp m dom, new_metric hp r0 c = Some (mp, m, dom) -> md_type (m_desc m) <> StringType /\ md_short (m_desc m) = [] /\ md_long (m_desc m) = []).
  Lemma body_will hp c : has_object hp c -> (forall mp m ip, c = RegM mp -> h_metrics hp !! mp = Some m -> m_indom m = Some ip -> is_Some (h_indoms hp !! ip)) -> strs_ok hp c ->
    will HN (g_body hp c) (effs hp r0 c) (outc hp r0 c).
  Proof.
    intros Ho Hd [Sd Sm]. destruct c as [mp|ip]; cbn [has_object g_body] in *.
    - destruct Ho as [m Hm]. rewrite Hm. unfold g_add_metric. apply wi_mapped. unfold effs, outc in *. cbn [new_domain new_metric] in *. rewrite Hm in *. cbn [mbind option_bind] in *.
      destruct (r_mapped r0) eqn:Em; [constructor|]. cbn [orb] in *. destruct (HasMetric r0 (md_name (m_desc m))) eqn:En.
      { apply will_has_metric; [by left|]. rewrite En. constructor. }
      cbn [from_option]. assert (gs = KMet \/ (md_type (m_desc m) <> StringType /\ md_short (m_desc m) = [] /\ md_long (m_desc m) = [])) as Sm'.
      { destruct Sm as [Sm|Sm]; [by left|]. right. by eapply Sm. }
      apply will_has_metric; [right; exists mp; apply elem_of_app; right; unfold meffs; left|]. rewrite En.
      destruct (m_indom m) as [ip|] eqn:Ei; cbn [mbind option_bind] in *; [|by apply will_add_raw]. destruct (Hd mp m ip eq_refl Hm Ei) as [d Hip]. rewrite Hip in *. cbn [mbind option_bind] in *.
      destruct (HasInstanceDomain r0 (id_name d)) eqn:Eh; cbn [from_option].
      + apply will_has_indom; [by left|]. rewrite Eh. by apply will_add_raw.
      + apply will_has_indom; [right; left; exists ip; apply elem_of_app; left; unfold deffs; left|]. rewrite Eh. apply will_add_indom; [done|done| |by apply will_add_raw].
        destruct Sd as [Sd|Sd]; [by left|]. right. by eapply Sd.
    - destruct Ho as [d Hip]. rewrite Hip. unfold effs, outc in *. cbn [new_domain new_metric] in *. rewrite Hip in *. cbn [mbind option_bind from_option] in *. rewrite app_nil_r.
      destruct (HasInstanceDomain r0 (id_name d)) eqn:Eh.
      + rewrite orb_true_r. unfold g_add_indom. apply will_has_indom; [by left|]. rewrite Eh. constructor.
      + destruct (r_mapped r0) eqn:Em.
        * cbn [orb from_option]. unfold g_add_indom. apply will_has_indom; [auto|]. rewrite Eh. apply wi_lock, wi_mapped. rewrite Em. apply wi_unlock, wi_ret.
        * cbn [orb from_option] in *. rewrite <- (app_nil_r (deffs _)). apply will_add_indom; [done|done| |constructor]. destruct Sd as [Sd|Sd]; [by left|]. right. by eapply Sd.
  Qed.
End will.

(** ** One step *)
(** The same in the middle of an addition: the counter still has the value read. *)
Definition now (r0 : registry) (gs : rlk) (r : registry) (L : hold) (p : rprog) (l : list eff) (o : outcome) : Prop :=
  will r0 gs L p l o \/
  exists c v z k l', p = GSet c v k /\ l = ECnt c z :: l' /\ v = cnt c r + z /\ L = HW (gd gs c) /\ will r0 gs L k l' o.

Lemma cnt_put_met c n mp r : cnt c (put_met n mp r) = cnt c r.
Proof. by destruct c. Qed.
Lemma cnt_put_dom c n mp r : cnt c (put_dom n mp r) = cnt c r.
Proof. by destruct c. Qed.
Lemma cnt_set c c' v r : cnt c (set_cnt c' v r) = if decide (c' = c) then v else cnt c r.
Proof. by destruct c, c'. Qed.
Lemma cnt_v2 c r : cnt c (set_v2 r) = cnt c r.
Proof. by destruct c. Qed.

Lemma set_lock_eq {O} `{EqDecision O} (f : O -> lk) o l : set_lock f o l o = l.
Proof. unfold set_lock. by rewrite decide_True. Qed.
Lemma set_lock_ne {O} `{EqDecision O} (f : O -> lk) o o' l : o' <> o -> set_lock f o l o' = f o'.
Proof. intros. unfold set_lock. by rewrite decide_False. Qed.

Lemma now_step r0 gs L p l o i r f p' r' f' perf rest : now r0 gs r L p l o -> gnext i p r f = Some (p', r', f') ->
  (forall x, L = HW x -> f x = LkW i) -> reg_is r0 perf r -> fresh r0 (perf ++ l ++ rest) ->
  exists L' l' es, l = es ++ l' /\ now r0 gs r' L' p' l' o /\ (forall x, L' = HW x -> f' x = LkW i) /\ reg_is r0 (es ++ perf) r' /\
    (forall j x, j <> i -> f x = LkW j -> f' x = LkW j) /\ (forall c, cnt c r' <> cnt c r -> f (gd gs c) = LkW i).
Proof.
  intros H N Hf R F.
  assert (forall L p l o r, will r0 gs L p l o -> now r0 gs r L p l o) as W by (intros; by left).
  destruct H as [H|(c & v & z & k & l' & -> & -> & -> & -> & H)].
  2:{ cbn [gnext] in N. injection N as <- <- <-. exists (HW (gd gs c)), l', [ECnt c z]. split_and!; auto; [by apply is_add|].
      intros c'. rewrite cnt_set. case_decide as E; [subst c'; intros _; by apply Hf|done]. }
  revert N. destruct H as [o|x k l o H|x k l o H|x k l o H|x k l o H|L k l o H|L n k l o Hn H|L n k l o Hn H|L n mp k l o H|L n ip k l o H|c z k l o H|L k p l o Hk H|L k p l o Ht Hk H|L p l o H];
    cbn [gnext] in *; intros N.
  - done.
  - destruct (f x) as [|X] eqn:Ef; [done|]. destruct (decide (X = ∅)) as [->|]; [|done]. injection N as <- <- <-. exists (HW x), l, []. split_and!; auto; try done.
    + intros y [= <-]. apply set_lock_eq.
    + intros j y Nj Hy. rewrite set_lock_ne; [done|]. intros ->. congruence.
  - injection N as <- <- <-. exists HN, l, []. split_and!; auto; try done.
    intros j y Nj Hy. rewrite set_lock_ne; [done|]. intros ->. rewrite (Hf x eq_refl) in Hy. congruence.
  - destruct (f x) as [|X] eqn:Ef; [done|]. injection N as <- <- <-. exists (HR x), l, []. split_and!; auto; try done.
    intros j y Nj Hy. rewrite set_lock_ne; [done|]. intros ->. congruence.
  - destruct (f x) as [|X] eqn:Ef; [done|]. injection N as <- <- <-. exists HN, l, []. split_and!; auto; try done.
    intros j y Nj Hy. rewrite set_lock_ne; [done|]. intros ->. congruence.
  - injection N as <- <- <-. exists L, l, []. rewrite (ri_mapped _ _ _ R). split_and!; auto; try done.
  - injection N as <- <- <-. exists L, l, []. rewrite (is_hasm _ _ _ R).
    + split_and!; auto; try done.
    + destruct Hn as [Hn|[mp Hn]]; [by left|]. right. intros mp'. by eapply fresh_met_in.
  - injection N as <- <- <-. exists L, l, []. rewrite (is_hasd _ _ _ R).
    + split_and!; auto; try done.
    + destruct Hn as [Hn|[[mp Hn]|Hn]]; [by left| |].
      * right. intros mp'. by eapply fresh_dom_in.
      * right. intros mp' K. assert (EDom n mp' ∈ perf ++ l ++ rest) as K2 by (apply elem_of_app; by left). rewrite (fr_map _ _ F Hn) in K2. by apply elem_of_nil in K2.
  - injection N as <- <- <-. exists L, l, [EMet n mp]. split_and!; auto; [|intros c; by rewrite cnt_put_met].
    apply (is_put_met _ _ _ R); [|intros mp'; by eapply fresh_met]. apply (fr_m0 _ _ F n mp). apply elem_of_app. right. left.
  - injection N as <- <- <-. exists L, l, [EDom n ip]. split_and!; auto; [|intros c; by rewrite cnt_put_dom].
    apply (is_put_dom _ _ _ R); [|intros mp'; by eapply fresh_dom]. apply (fr_d0 _ _ F n ip). apply elem_of_app. right. left.
  - injection N as <- <- <-. exists (HW (gd gs c)), (ECnt c z :: l), []. split_and!; auto; try done. right. by exists c, (cnt c r + z), z, k, l.
  - injection N as <- <- <-. exists L, l, []. rewrite Hk. split_and!; auto; try done.
  - injection N as <- <- <-. destruct (r_version2 r) eqn:E.
    + exists L, l, [EV2]. rewrite Ht. split_and!; auto; try done. by apply is_v2.
    + exists L, (EV2 :: l), []. rewrite Hk. split_and!; auto; try done. left. by apply wi_setv2.
  - injection N as <- <- <-. exists L, l, [EV2]. split_and!; auto; [by apply is_set_v2|intros c; by rewrite cnt_v2].
Qed.

(** ** All goroutines *)
Lemma concat_insert_split {A} (xss : list (list A)) i xs ys : xss !! i = Some (ys ++ xs) -> ys ++ concat (<[i := xs]> xss) ≡ₚ concat xss.
Proof.
  revert i. induction xss as [|zs xss IH]; intros i H; [done|]. destruct i as [|i]; cbn in *.
  - injection H as ->. by rewrite app_assoc.
  - rewrite <- (IH i H). apply Permutation_app_swap_app.
Qed.
Lemma concat_split {A} (xss : list (list A)) i xs : xss !! i = Some xs -> exists rest, concat xss ≡ₚ xs ++ rest.
Proof.
  revert i. induction xss as [|zs xss IH]; intros i H; [done|]. destruct i as [|i]; cbn in *.
  - injection H as ->. by exists (concat xss).
  - destruct (IH i H) as [rest E]. exists (zs ++ rest). rewrite E. apply Permutation_app_swap_app.
Qed.

Section machine.
  Context (hp : heap) (r0 : registry) (gs : rlk) (css : list (list rcall)).
  Notation effs := (effs hp r0). Notation outc := (outc hp r0).
  Notation A := (concat (effs <$> concat css)).
  Context (F : fresh r0 A) (B : forall c, c ∈ concat css -> will r0 gs HN (g_body hp c) (effs c) (outc c)).

  Definition cur_call (th : thr rcall rprog outcome) : list rcall := match t_cur th with Some (c, _) => [c] | None => [] end.
  Definition tok (r : registry) (f : rlk -> lk) (i : nat) (th : thr rcall rprog outcome) (rem : list eff) : Prop :=
    css !! i = Some ((t_done th).*1 ++ cur_call th ++ t_todo th) /\ Forall (fun x => x.2 = outc x.1) (t_done th) /\
    match t_cur th with
    | None => rem = concat (effs <$> t_todo th)
    | Some (c, p) => exists L l, rem = l ++ concat (effs <$> t_todo th) /\ now r0 gs r L p l (outc c) /\ (forall x, L = HW x -> f x = LkW i)
    end.
  Record rinv (m : rmach) (perf : list eff) (rems : list (list eff)) : Prop := {
    rv_reg : reg_is r0 perf (rm_reg m);
    rv_perm : perf ++ concat rems ≡ₚ A;
    rv_len : length rems = length (rm_thr m) /\ length (rm_thr m) = length css;
    rv_thr : forall i th rem, rm_thr m !! i = Some th -> rems !! i = Some rem -> tok (rm_reg m) (rm_locks m) i th rem }.

  Lemma rinv_start : rinv (rm_start r0 css) [] ((fun l => concat (effs <$> l)) <$> css).
  Proof.
    split.
    - apply reg_is_nil.
    - cbn. clear. induction css as [|l css' IH]; [done|]. cbn. rewrite fmap_app, concat_app, IH. done.
    - cbn. by rewrite !fmap_length.
    - intros i th rem. cbn. rewrite !list_lookup_fmap. destruct (css !! i) as [l|] eqn:E; [|done]. cbn. intros [= <-] [= <-]. split_and!; cbn; auto.
  Qed.
  Lemma now_other r r' L p l o f f' i j : i <> j -> now r0 gs r L p l o -> (forall x, L = HW x -> f x = LkW j) -> (forall x, f x = LkW j -> f' x = LkW j) ->
    (forall c, cnt c r' <> cnt c r -> f (gd gs c) = LkW i) -> now r0 gs r' L p l o /\ forall x, L = HW x -> f' x = LkW j.
  Proof.
    intros N H Hf Hf' Hc. split; [|auto]. destruct H as [H|(c & v & z & k & l' & -> & -> & -> & -> & H)]; [by left|]. right. exists c, (cnt c r + z), z, k, l'. split_and!; auto.
    destruct (decide (cnt c r' = cnt c r)) as [E|E]; [lia|]. apply Hc in E. rewrite (Hf _ eq_refl) in E. congruence.
  Qed.
  Lemma tok_other r r' f f' i j th rem : i <> j -> tok r f j th rem -> (forall x, f x = LkW j -> f' x = LkW j) ->
    (forall c, cnt c r' <> cnt c r -> f (gd gs c) = LkW i) -> tok r' f' j th rem.
  Proof.
    intros N (T1 & T2 & T3) Hf Hc. split_and!; auto. destruct (t_cur th) as [[c p]|]; [|done]. destruct T3 as (L & l & E & H & Hl). exists L, l.
    destruct (now_other r r' L p l _ f f' i j N H Hl Hf Hc). auto.
  Qed.
  Lemma rinv_step m m' perf rems : rinv m perf rems -> rstep hp m m' -> exists perf' rems', rinv m' perf' rems'.
  Proof.
    intros [IR IP [IL1 IL2] IT] M. destruct M as [r f ts i d c l Hi|r f ts i d c p l p' r' f' Hi Hs|r f ts i d c o l Hi]; cbn [rm_reg rm_locks rm_thr] in *; pose proof (lookup_lt_Some _ _ _ Hi) as Lt;
      (destruct (rems !! i) as [rem|] eqn:Er; [|apply lookup_ge_None in Er; lia]); destruct (IT _ _ _ Hi Er) as (T1 & T2 & T3); cbn [t_done t_cur t_todo cur_call] in *.
    - exists perf, rems. split; cbn [rm_reg rm_locks rm_thr]; [done|done|by rewrite insert_length|]. intros j th rem' Hj Hr.
      destruct (decide (i = j)) as [<-|N]; [|rewrite list_lookup_insert_ne in Hj by done; eauto]. rewrite list_lookup_insert in Hj by done. injection Hj as <-. assert (rem' = rem) as -> by congruence.
      split_and!; cbn [t_done t_cur t_todo]; auto. exists HN, (effs c). split_and!; [done| |done]. left. apply B. apply elem_of_list_In, in_concat. eexists.
      split; apply elem_of_list_In; [by eapply elem_of_list_lookup_2|]. cbn. rewrite !elem_of_app, elem_of_cons. auto.
    - destruct T3 as (L & l0 & -> & Hn & Hl). destruct (concat_split _ _ _ Er) as [rest Ec].
      destruct (now_step r0 gs L p l0 (outc c) i r f p' r' f' perf (concat (effs <$> l) ++ rest) Hn Hs Hl IR) as (L' & l' & es & -> & Hn' & Hl' & R' & Hj' & Hc').
      { eapply fresh_perm; [|exact F]. rewrite <- IP, Ec, <- app_assoc. done. }
      exists (es ++ perf), (<[i := l' ++ concat (effs <$> l)]> rems). split; cbn [rm_reg rm_locks rm_thr].
      + exact R'.
      + rewrite <- IP. rewrite <- (concat_insert_split rems i (l' ++ concat (effs <$> l)) es) by by rewrite app_assoc. rewrite <- app_assoc. apply Permutation_app_swap_app.
      + by rewrite !insert_length.
      + intros j th rem' Hj Hr. destruct (decide (i = j)) as [<-|N].
        * rewrite list_lookup_insert in Hj by done. injection Hj as <-. rewrite list_lookup_insert in Hr by lia. injection Hr as <-. split_and!; cbn [t_done t_cur t_todo]; auto. by exists L', l'.
        * rewrite list_lookup_insert_ne in Hj by done. rewrite list_lookup_insert_ne in Hr by done. eapply (tok_other r r' f f' i j); eauto.
    - destruct T3 as (L & l0 & -> & Hn & Hl). destruct Hn as [Hn|(? & ? & ? & ? & ? & ? & _)]; [|done]. inversion Hn; subst. exists perf, rems. split; cbn [rm_reg rm_locks rm_thr]; [done|done|by rewrite insert_length|].
      intros j th rem' Hj Hr. destruct (decide (i = j)) as [<-|N]; [|rewrite list_lookup_insert_ne in Hj by done; eauto]. rewrite list_lookup_insert in Hj by done. injection Hj as <-.
      rewrite Er in Hr. injection Hr as <-. split_and!; cbn [t_done t_cur t_todo cur_call]; auto.
      + rewrite T1. cbn. rewrite fmap_app, <- app_assoc. done.
      + apply Forall_app. split; [done|]. by constructor.
  Qed.
  Theorem machine_end m : rtc (rstep hp) (rm_start r0 css) m -> rm_done m -> reg_is r0 A (rm_reg m) /\ length (rm_thr m) = length css /\
    forall i th, rm_thr m !! i = Some th -> css !! i = Some (t_done th).*1 /\ Forall (fun x => x.2 = outc x.1) (t_done th).
  Proof.
    intros H D. assert (exists perf rems, rinv m perf rems) as (perf & rems & [IR IP [IL1 IL2] IT]).
    { pose proof rinv_start as I. remember (rm_start r0 css) as m0 eqn:E. clear E. revert I. generalize (@nil eff). generalize ((fun l => concat (effs <$> l)) <$> css).
      induction H as [|m1 m2 m3 M _ IH]; intros rems perf I; [eauto|]. destruct (rinv_step _ _ _ _ I M) as (perf' & rems' & I'). eauto. }
    split_and!.
    - assert (concat rems = []) as E.
      { assert (forall i rem, rems !! i = Some rem -> rem = []) as K.
        { intros i rem Hr. destruct (rm_thr m !! i) as [th|] eqn:Ht; [|apply lookup_ge_None in Ht; apply lookup_lt_Some in Hr; lia]. destruct (IT _ _ _ Ht Hr) as (_ & _ & T).
          destruct (D _ _ Ht) as [E1 E2]. by rewrite E1, E2 in T. }
        clear - K. induction rems as [|x rems IH]; [done|]. cbn. rewrite (K 0%nat x eq_refl), IH; [done|]. intros i rem Hr. by apply (K (S i)). }
      rewrite E, app_nil_r in IP. by eapply reg_is_perm.
    - done.
    - intros i th Ht. destruct (rems !! i) as [rem|] eqn:Er; [|apply lookup_ge_None in Er; apply lookup_lt_Some in Ht; lia]. destruct (IT _ _ _ Ht Er) as (T1 & T2 & _).
      destruct (D _ _ Ht) as [E1 E2]. unfold cur_call in T1. rewrite E1, E2 in T1. cbn in T1. rewrite app_nil_r in T1. done.
  Qed.
End machine.

(** ** One call after the other *)
Lemma is_text r0 l r s : reg_is r0 l r -> reg_is r0 (text_eff s ++ l) (set_cnt NStr (cnt NStr r + b2z (nonempty s)) r).
Proof. intros R. unfold text_eff. destruct (nonempty s); cbn [b2z app]; [by apply is_add|]. rewrite Z.add_0_r. by destruct r. Qed.
Lemma is_deffs r0 l r ip d : reg_is r0 l r -> r_indoms r0 !! id_name d = None -> (forall ip', EDom (id_name d) ip' ∉ l) ->
  reg_is r0 (deffs (ip, d) ++ l) (mkReg (<[id_name d := ip]> (r_indoms r)) (r_metrics r) (r_instanceCount r + instance_count d) (r_valueCount r)
    (r_stringcount r + b2z (nonempty (id_short d)) + b2z (nonempty (id_long d))) (r_mapped r) (r_version2 r || has_long_instance d)).
Proof.
  intros R H0 Hl. pose proof (is_text _ _ _ (id_long d) (is_text _ _ _ (id_short d) (is_v2_if _ _ _ (is_add _ _ _ (is_put_dom _ _ _ R _ ip H0 Hl) NInst (instance_count d)) (has_long_instance d)))) as K.
  eapply reg_is_perm; [|exact K]. unfold deffs. cbn [fst snd]. solve_Permutation.
Qed.
Lemma is_meffs r0 l r mp m dom : reg_is r0 l r -> r_metrics r0 !! md_name (m_desc m) = None -> (forall mp', EMet (md_name (m_desc m)) mp' ∉ l) ->
  reg_is r0 (meffs (mp, m, dom) ++ l) (add_metric_raw r mp m dom).
Proof.
  intros R H0 Hl. pose proof (is_add _ _ _ (is_v2_if _ _ _ (is_put_met _ _ _ R _ mp H0 Hl) (MaxV1NameLength <? zlen (md_name (m_desc m)))) NVal (metric_values dom)) as K.
  assert (exists r1, reg_is r0 ((if md_type (m_desc m) =? StringType then [ECnt NStr (metric_values dom)] else []) ++ ECnt NVal (metric_values dom) :: (if MaxV1NameLength <? zlen (md_name (m_desc m)) then [EV2] else []) ++ EMet (md_name (m_desc m)) mp :: l) r1 /\
    add_metric_raw r mp m dom = set_cnt NStr (cnt NStr r1 + b2z (nonempty (md_short (m_desc m))) + b2z (nonempty (md_long (m_desc m)))) r1) as (r1 & K1 & ->).
  { destruct (md_type (m_desc m) =? StringType) eqn:E; cbn [app].
    - eexists. split; [apply is_add, K|]. unfold add_metric_raw. rewrite E. done.
    - eexists. split; [exact K|]. unfold add_metric_raw. rewrite E. cbn. f_equal. lia. }
  pose proof (is_text _ _ _ (md_long (m_desc m)) (is_text _ _ _ (md_short (m_desc m)) K1)) as K2. eapply reg_is_perm; [|exact K2]. unfold meffs. cbn [fst snd]. solve_Permutation.
Qed.
Lemma seq_metric hp r0 mp m perf rest r : h_metrics hp !! mp = Some m -> (forall ip, m_indom m = Some ip -> is_Some (h_indoms hp !! ip)) ->
  reg_is r0 perf r -> fresh r0 (perf ++ effs hp r0 (RegM mp) ++ rest) ->
  exists r', add_metric hp r mp m = (outc hp r0 (RegM mp), r') /\ reg_is r0 (effs hp r0 (RegM mp) ++ perf) r'.
Proof.
  intros Hm Hd R F. unfold add_metric, effs, outc in *. cbn [new_domain new_metric] in *. rewrite Hm in *. cbn [mbind option_bind] in *. rewrite (ri_mapped _ _ _ R).
  destruct (r_mapped r0) eqn:Em; [by exists r|]. cbn [orb] in *.
  destruct (HasMetric r0 (md_name (m_desc m))) eqn:En; [rewrite (is_hasm _ _ _ R) by (by left); rewrite En; by exists r|].
  pose proof (not_has_m _ _ En) as Hn0. cbn [from_option] in *.
  assert (forall mp', EMet (md_name (m_desc m)) mp' ∉ perf) as Hfm.
  { intros mp'. eapply fresh_met_in; [exact F|]. apply elem_of_app. right. unfold meffs. left. }
  rewrite (is_hasm _ _ _ R) by (by right). rewrite En.
  destruct (m_indom m) as [ip|] eqn:Ei; cbn [mbind option_bind from_option] in *; [|eexists; split; [done|]; by apply is_meffs]. destruct (Hd ip eq_refl) as [d Hip]. rewrite Hip in *. cbn [mbind option_bind] in *.
  destruct (HasInstanceDomain r0 (id_name d)) eqn:Eh; cbn [from_option app] in *.
  - rewrite (is_hasd _ _ _ R) by (by left). rewrite Eh. eexists. split; [done|]. by apply is_meffs.
  - assert (forall ip', EDom (id_name d) ip' ∉ perf) as Hfd.
    { intros ip'. eapply fresh_dom_in; [exact F|]. apply elem_of_app. left. unfold deffs. left. }
    rewrite (is_hasd _ _ _ R) by (by right). rewrite Eh. unfold add_indom. rewrite (is_hasd _ _ _ R) by (by right). rewrite Eh, (ri_mapped _ _ _ R), Em. eexists. split; [done|].
    pose proof (is_deffs _ _ _ ip d R (not_has _ _ Eh) Hfd) as K. rewrite (ri_mapped _ _ _ R), Em in K.
    assert (forall mp', EMet (md_name (m_desc m)) mp' ∉ deffs (ip, d) ++ perf) as Hfm2.
    { intros mp' H. apply elem_of_app in H as [H|H]; [|by apply (Hfm mp')]. assert (md_name (m_desc m) ∈ omap mname (deffs (ip, d))) as X by (apply elem_of_list_omap; by eexists).
      rewrite mname_deffs in X. by apply elem_of_nil in X. }
    pose proof (is_meffs _ _ _ mp m (Some d) K Hn0 Hfm2) as K2. eapply reg_is_perm; [|exact K2]. solve_Permutation.
Qed.
Lemma seq_indom hp r0 ip d perf rest r : h_indoms hp !! ip = Some d -> reg_is r0 perf r -> fresh r0 (perf ++ effs hp r0 (RegD ip) ++ rest) ->
  outc hp r0 (RegD ip) = (match add_indom r ip d with Some _ => ROk | None => RErr end) /\ reg_is r0 (effs hp r0 (RegD ip) ++ perf) (default r (add_indom r ip d)).
Proof.
  intros Hd R F. unfold add_indom, effs, outc in *. cbn [new_domain new_metric] in *. rewrite Hd in *. cbn [mbind option_bind] in *. rewrite (ri_mapped _ _ _ R).
  destruct (r_mapped r0) eqn:Em; [cbn [orb from_option app]; by destruct (HasInstanceDomain r _)|]. cbn [orb] in *.
  destruct (HasInstanceDomain r0 (id_name d)) eqn:En; [rewrite (is_hasd _ _ _ R) by (by left); rewrite En; done|].
  cbn [from_option] in *. assert (forall ip', EDom (id_name d) ip' ∉ perf) as Hfd.
  { intros ip'. eapply fresh_dom_in; [exact F|]. rewrite app_nil_r. unfold deffs. left. }
  rewrite (is_hasd _ _ _ R) by (by right). rewrite En. split; [done|]. pose proof (is_deffs _ _ _ ip d R (not_has _ _ En) Hfd) as K. rewrite (ri_mapped _ _ _ R), Em in K. rewrite app_nil_r. exact K.
Qed.

(** Sequential registrations in any order. *)
Lemma seq_calls w rid r0 cs : w_dead w = false -> (forall c, c ∈ cs -> has_object (w_heap w) c) ->
  (forall mp m ip, RegM mp ∈ cs -> h_metrics (w_heap w) !! mp = Some m -> m_indom m = Some ip -> is_Some (h_indoms (w_heap w) !! ip)) ->
  forall perf r w', reg_is r0 perf r -> w' = set_regs w (<[rid := r]> (w_regs w)) -> fresh r0 (perf ++ concat (effs (w_heap w) r0 <$> cs)) ->
  exists r' tr, reg_is r0 (concat (effs (w_heap w) r0 <$> cs) ++ perf) r' /\ hist w' tr (set_regs w (<[rid := r']> (w_regs w))) /\
    map (fun x => (x.1.2, x.2)) tr = map (fun c => (reg_call rid c, outc (w_heap w) r0 c)) cs.
Proof.
  intros D Ho Hd. induction cs as [|c cs IH]; intros perf r w' R Ew F.
  - exists r, []. rewrite Ew. split_and!; [done|constructor|done].
  - cbn [fmap list_fmap concat] in *.
    assert (exists r', reg_is r0 (effs (w_heap w) r0 c ++ perf) r' /\ wstep w' (reg_call rid c) (outc (w_heap w) r0 c) (set_regs w (<[rid := r']> (w_regs w)))) as (r' & R' & S).
    { destruct c as [mp|ip].
      - destruct (Ho (RegM mp) ltac:(left)) as [m Hm]. destruct (seq_metric (w_heap w) r0 mp m perf (concat (effs (w_heap w) r0 <$> cs)) r Hm) as (r' & E & R'); [|done|done|].
        + intros ip Hip. eapply Hd; [|exact Hm|exact Hip]. left.
        + exists r'. split; [exact R'|]. rewrite Ew. cbn [reg_call]. pose proof (ws_add_metric (set_regs w (<[rid := r]> (w_regs w))) rid mp r m _ r' D (lookup_insert _ _ _) Hm E) as S.
          cbn [set_regs w_regs] in S. rewrite insert_insert in S. exact S.
      - destruct (Ho (RegD ip) ltac:(left)) as [d Hip]. destruct (seq_indom (w_heap w) r0 ip d perf (concat (effs (w_heap w) r0 <$> cs)) r Hip R F) as [E R'].
        eexists. split; [exact R'|]. rewrite Ew, E. cbn [reg_call]. pose proof (ws_add_indom (set_regs w (<[rid := r]> (w_regs w))) rid ip r d D (lookup_insert _ _ _) Hip) as S.
        destruct (add_indom r ip d); cbn [default set_regs w_regs] in *; rewrite ?insert_insert in S; exact S. }
    destruct (IH ltac:(intros; apply Ho; by right) ltac:(intros mp m ip Hin; apply Hd; by right) _ _ _ R' eq_refl) as (r2 & tr & R2 & H & Et).
    { eapply fresh_perm; [|exact F]. solve_Permutation. }
    eexists r2, _. split_and!; [eapply reg_is_perm; [|exact R2]; solve_Permutation|eapply hist_cons; [exact S|exact H]|]. cbn. f_equal. exact Et.
Qed.

Theorem concurrent_registration w rid r0 css m : w_ok w -> w_dead w = false -> w_regs w !! rid = Some r0 ->
  (forall l c, l ∈ css -> c ∈ l -> has_object (w_heap w) c) -> separate (w_heap w) r0 (concat css) ->
  rtc (rstep (w_heap w)) (rm_start r0 css) m -> rm_done m ->
  exists res : rcall -> outcome,
    length (rm_thr m) = length css /\ (forall i th, rm_thr m !! i = Some th -> css !! i = Some (t_done th).*1 /\ Forall (fun x => x.2 = res x.1) (t_done th)) /\
    forall cs, cs ≡ₚ concat css -> exists tr, hist w tr (set_regs w (<[rid := rm_reg m]> (w_regs w))) /\ map (fun x => (x.1.2, x.2)) tr = map (fun c => (reg_call rid c, res c)) cs.
Proof.
  intros W D Hr Ho Sep H Dn.
  assert (forall c, c ∈ concat css -> has_object (w_heap w) c) as Ho'.
  { intros c Hi. apply elem_of_list_In, in_concat in Hi as (l & H3 & H4). apply (Ho l c); by apply elem_of_list_In. }
  assert (forall mp m ip, h_metrics (w_heap w) !! mp = Some m -> m_indom m = Some ip -> is_Some (h_indoms (w_heap w) !! ip)) as Hd.
  { intros mp m0 ip Hm Hi. pose proof (mo_body _ _ (ho_metrics _ (wo_heap _ W) _ _ Hm)) as K. unfold m_indom in Hi. destruct (m_body m0) as [|ip' cells]; [done|]. injection Hi as ->. cbn in K. destruct K as (d & K & _). eauto. }
  assert (exists gs, forall c, c ∈ concat css -> strs_ok r0 gs (w_heap w) c) as [gs Hs].
  { destruct (sp_strs _ _ _ Sep) as [K|K]; [exists KMet|exists KDom]; intros c Hc; split; eauto. }
  pose proof (fresh_calls _ _ _ Sep) as F.
  destruct (machine_end (w_heap w) r0 gs css F) with (m := m) as (R & Hl & Ht); [|exact H|exact Dn|].
  { intros c Hc. apply body_will; [by apply Ho'|intros; eauto|by apply Hs]. }
  exists (outc (w_heap w) r0). split_and!; [exact Hl|exact Ht|]. intros cs P.
  assert (concat (effs (w_heap w) r0 <$> cs) ≡ₚ concat (effs (w_heap w) r0 <$> concat css)) as PE by (clear - P; induction P; cbn; [done|by f_equiv|apply Permutation_app_swap_app|by etrans]).
  assert (forall c, c ∈ cs -> has_object (w_heap w) c) as Ho2 by (intros c Hc; apply Ho'; by rewrite <- P).
  destruct (seq_calls w rid r0 cs D Ho2 ltac:(intros; eauto) [] r0 w (reg_is_nil r0)) as (r' & tr & R' & Hh & Et).
  - rewrite insert_id by done. by destruct w.
  - cbn [app]. eapply fresh_perm; [|exact F]. by rewrite PE.
  - exists tr. split; [|exact Et]. rewrite app_nil_r in R'. assert (r' = rm_reg m) as <-; [|done]. eapply reg_is_eq; [|exact R]. by eapply reg_is_perm.
Qed.
