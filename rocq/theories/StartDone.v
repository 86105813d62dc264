(** The final state of start(): file contents, instance offsets and update closures. *)
From Verif Require Import Base BaseFacts Floats GoVal MetricType ByteWriter Hash Units Indom Metrics Registry Prog
  Client Mmvdump Ileave ProgProofs Events StartEvents BufFacts Tiling StartGood StartLayout StartFinal.

(** ** The offset fields *)
Definition l_off (l : label) : option (okey * Z + okey * Z) :=
  match l with LSetOff i v => Some (inl (i, v)) | LGetOff i v => Some (inr (i, v)) | _ => None end.

Fixpoint orun (m : gmap okey Z) (l : list (okey * Z + okey * Z)) : option (gmap okey Z) :=
  match l with
  | [] => Some m
  | inl (i, v) :: l => orun (<[i := v]> m) l
  | inr (i, v) :: l => if v =? default 0 (m !! i) then orun m l else None
  end.

Lemma acts_off tr : forall s s', acts s tr = Some s' -> orun (g_off s) (omap l_off tr) = Some (g_off s').
Proof.
  induction tr as [|l tr IH]; intros s s' H; cbn [acts] in H; [by simplify_eq|].
  destruct (act s (Some l)) as [s1|] eqn:E; [|discriminate]. specialize (IH _ _ H).
  destruct l; cbn in E; cbn; simplify_eq; auto.
  - destruct (g_ch s c); try discriminate. destruct (v =? v0); simplify_eq. auto.
  - destruct (g_ch s c); try discriminate. simplify_eq. auto.
  - destruct (v =? _); simplify_eq. auto.
Qed.

Lemma off_sets tr : omap l_get tr = [] -> omap l_off tr = map inl (omap l_set tr).
Proof. induction tr as [|l tr IH]; intros H; [reflexivity|]. destruct l; cbn in *; try discriminate; auto. f_equal. auto. Qed.
Lemma off_gets tr : omap l_set tr = [] -> omap l_off tr = map inr (omap l_get tr).
Proof. induction tr as [|l tr IH]; intros H; [reflexivity|]. destruct l; cbn in *; try discriminate; auto. f_equal. auto. Qed.
Lemma off_none tr : omap l_set tr = [] -> omap l_get tr = [] -> omap l_off tr = [].
Proof. intros H1 H2. rewrite off_sets by auto. rewrite H1. reflexivity. Qed.

Definition ins {K} `{Countable K} (m : gmap K Z) (x : K * Z) : gmap K Z := <[x.1 := x.2]> m.

Lemma orun_sets l l' : forall m, orun m (map inl l ++ l') = orun (foldl ins m l) l'.
Proof. induction l as [|[i v] l IH]; intros m; [reflexivity|]. cbn. apply IH. Qed.
Lemma orun_gets l : forall m m', orun m (map inr l) = Some m' -> m' = m /\ Forall (fun x => x.2 = default 0 (m !! x.1)) l.
Proof.
  induction l as [|[i v] l IH]; intros m m' H; cbn in H; [simplify_eq; auto|].
  destruct (v =? default 0 (m !! i)) eqn:E; [|discriminate]. apply IH in H as [-> HF]. split; [auto|].
  constructor; [cbn; lia|auto].
Qed.

Lemma foldl_ins_notin {K} `{Countable K} l (m : gmap K Z) k : k ∉ map fst l -> foldl ins m l !! k = m !! k.
Proof.
  revert m; induction l as [|[i v] l IH]; intros m Hk; [reflexivity|]. cbn in *. apply not_elem_of_cons in Hk as [H1 H2].
  rewrite IH by auto. unfold ins. cbn. apply lookup_insert_ne. auto.
Qed.
Lemma foldl_ins_in {K} `{Countable K} l (m : gmap K Z) k v : NoDup (map fst l) -> (k, v) ∈ l -> foldl ins m l !! k = Some v.
Proof.
  revert m; induction l as [|[i w] l IH]; intros m HN Hk; [inversion Hk|]. cbn in *. apply NoDup_cons in HN as [H1 H2].
  apply elem_of_cons in Hk as [Hk|Hk].
  - simplify_eq. rewrite foldl_ins_notin by auto. unfold ins. cbn. apply lookup_insert.
  - apply IH; auto.
Qed.

Lemma acts_upd tr : forall s s', acts s tr = Some s' -> g_upd s' = foldl ins (g_upd s) (omap l_upd tr).
Proof.
  induction tr as [|l tr IH]; intros s s' H; cbn [acts] in H; [by simplify_eq|].
  destruct (act s (Some l)) as [s1|] eqn:E; [|discriminate]. specialize (IH _ _ H).
  destruct l; cbn in E; cbn; simplify_eq; auto.
  - destruct (g_ch s c); try discriminate. destruct (v =? v0); simplify_eq. auto.
  - destruct (g_ch s c); try discriminate. simplify_eq. auto.
  - destruct (v =? _); simplify_eq. auto.
Qed.

(** ** Which offset and update events occur *)
Lemma sets_str s so : omap e_set (ev_str s so) = [] /\ omap e_get (ev_str s so) = [] /\ omap e_upd (ev_str s so) = [].
Proof. unfold ev_str. destruct (nonempty s); auto. Qed.

Fixpoint inst_sets (ip : nat) (ilen ioff : Z) (l : list (gostring * Z)) : list (okey * Z) :=
  match l with [] => [] | (n, _) :: l => ((ip, n), ioff) :: inst_sets ip ilen (ioff + ilen) l end.

Lemma sets_insts v2 ip io ilen l : forall ioff ss,
  omap e_set (ev_insts v2 ip io ilen ioff l ss) = inst_sets ip ilen ioff l /\
  omap e_get (ev_insts v2 ip io ilen ioff l ss) = [] /\ omap e_upd (ev_insts v2 ip io ilen ioff l ss) = [].
Proof.
  induction l as [|[n id] l IH]; intros ioff ss; cbn [ev_insts]; [auto|]. rewrite !omap_app.
  destruct (IH (ioff + ilen) (tl ss)) as (-> & -> & ->). destruct v2; auto.
Qed.

Lemma sets_dom r x a : omap e_set (ev_dom r x a) = inst_sets x.1.1 (InstanceLength r) (da_ioff a) x.2 /\
  omap e_get (ev_dom r x a) = [] /\ omap e_upd (ev_dom r x a) = [].
Proof.
  unfold ev_dom. rewrite !omap_app.
  destruct (sets_str (id_short x.1.2) (da_so a)) as (-> & -> & ->), (sets_str (id_long x.1.2) (da_lo a)) as (-> & -> & ->).
  edestruct sets_insts as (-> & -> & ->). auto.
Qed.

Lemma sets_desc v2 d iid a : omap e_set (ev_desc v2 d iid a) = [] /\ omap e_get (ev_desc v2 d iid a) = [] /\ omap e_upd (ev_desc v2 d iid a) = [].
Proof.
  assert (forall off, let E := ev_rest d iid off (ma_so a) (ma_lo a) in omap e_set E = [] /\ omap e_get E = [] /\ omap e_upd E = []) as H.
  { intros off. cbn zeta. unfold ev_rest. rewrite !omap_app.
    destruct (sets_str (md_short d) (ma_so a)) as (-> & -> & ->), (sets_str (md_long d) (ma_lo a)) as (-> & -> & ->). auto. }
  unfold ev_desc. destruct v2.
  - rewrite !omap_app. destruct (H (ma_off a + 8)) as (-> & -> & ->). auto.
  - destruct (H (ma_off a + 64)) as (H1 & H2 & H3). split_and!; assumption.
Qed.

Definition upd_off (t : Z) (a : va) : Z := if t =? StringType then va_so a else va_off a.

Lemma sets_v1 t key doff get v a : omap e_set get = [] -> omap e_upd get = [] ->
  omap e_set (ev_v1 t key doff get v a) = [] /\ omap e_get (ev_v1 t key doff get v a) = omap e_get get /\
  omap e_upd (ev_v1 t key doff get v a) = [(key, upd_off t a)].
Proof.
  intros H1 H2. rewrite v1_app, !omap_app, H1, H2. unfold ev_val, upd_off. destruct (t =? StringType); auto.
Qed.

Fixpoint val_gets (ip : nat) (vals : list (gostring * goval)) (l : list va) : list (okey * Z) :=
  match vals with [] => [] | (n, _) :: vals => ((ip, n), va_io (hd va0 l)) :: val_gets ip vals (tl l) end.
Fixpoint val_upds (t : Z) (mp : nat) (vals : list (gostring * goval)) (l : list va) : list (vkey * Z) :=
  match vals with [] => [] | (n, _) :: vals => ((mp, Some n), upd_off t (hd va0 l)) :: val_upds t mp vals (tl l) end.

Lemma sets_vals t mp ip doff vals : forall l,
  omap e_set (ev_vals t mp ip doff vals l) = [] /\ omap e_get (ev_vals t mp ip doff vals l) = val_gets ip vals l /\
  omap e_upd (ev_vals t mp ip doff vals l) = val_upds t mp vals l.
Proof.
  induction vals as [|[n v] vals IH]; intros l; cbn [ev_vals]; [auto|]. rewrite !omap_app.
  destruct (IH (tl l)) as (-> & -> & ->).
  destruct (sets_v1 t (mp, Some n) doff [EGet (ip, n) (va_io (hd va0 l))] v (hd va0 l)) as (-> & -> & ->); auto.
Qed.

Definition met_gets (m : mplan) (a : ma) : list (okey * Z) :=
  match m with MPSingle _ _ _ => [] | MPInst _ _ ip _ vals => val_gets ip vals (ma_vs a) end.
Definition met_upds (m : mplan) (a : ma) : list (vkey * Z) :=
  match m with
  | MPSingle mp d _ => [((mp, None), upd_off (md_type d) (hd va0 (ma_vs a)))]
  | MPInst mp d _ _ vals => val_upds (md_type d) mp vals (ma_vs a)
  end.

Lemma sets_met v2 m a : omap e_set (ev_met v2 m a) = [] /\ omap e_get (ev_met v2 m a) = met_gets m a /\ omap e_upd (ev_met v2 m a) = met_upds m a.
Proof.
  destruct m as [mp d v|mp d ip dom vals]; cbn [ev_met met_gets met_upds].
  - change (ev_met v2 (MPSingle mp d v) a) with ([EAlloc CMetric (ma_off a) (mlen v2)] ++ ev_desc v2 d None a ++ ev_v1 (md_type d) (mp, None) (ma_off a) [] v (hd va0 (ma_vs a))).
    change (EAlloc CMetric (ma_off a) (mlen v2) :: ?l) with ([EAlloc CMetric (ma_off a) (mlen v2)] ++ l).
    rewrite !omap_app. destruct (sets_desc v2 d None a) as (-> & -> & ->).
    destruct (sets_v1 (md_type d) (mp, None) (ma_off a) [] v (hd va0 (ma_vs a))) as (-> & -> & ->); auto.
  - change (EAlloc CMetric (ma_off a) (mlen v2) :: ?l) with ([EAlloc CMetric (ma_off a) (mlen v2)] ++ l).
    rewrite !omap_app. destruct (sets_desc v2 d (Some (id_id dom)) a) as (-> & -> & ->).
    destruct (sets_vals (md_type d) mp ip (ma_off a) vals (ma_vs a)) as (-> & -> & ->); auto.
Qed.

Lemma sets_doms r pl ad : omap e_set (ev_doms r pl ad) = concat (zip_with (fun x a => inst_sets x.1.1 (InstanceLength r) (da_ioff a) x.2) (pl_doms pl) ad) /\
  omap e_get (ev_doms r pl ad) = [] /\ omap e_upd (ev_doms r pl ad) = [].
Proof.
  unfold ev_doms. revert ad. induction (pl_doms pl) as [|x l IH]; intros [|a ad]; cbn [zip_with concat]; auto.
  rewrite !omap_app. destruct (IH ad) as (-> & -> & ->). destruct (sets_dom r x a) as (-> & -> & ->). auto.
Qed.
Lemma sets_mets r pl am : omap e_set (ev_mets r pl am) = [] /\
  omap e_get (ev_mets r pl am) = concat (zip_with met_gets (pl_mets pl) am) /\ omap e_upd (ev_mets r pl am) = concat (zip_with met_upds (pl_mets pl) am).
Proof.
  unfold ev_mets. revert am. induction (pl_mets pl) as [|x l IH]; intros [|a am]; cbn [zip_with concat]; auto.
  rewrite !omap_app. destruct (IH am) as (-> & -> & ->). destruct (sets_met (r_version2 r) x a) as (-> & -> & ->). auto.
Qed.
Lemma sets_tocs l : forall p, omap e_set (ev_tocs p l) = [] /\ omap e_get (ev_tocs p l) = [] /\ omap e_upd (ev_tocs p l) = [].
Proof. induction l as [|[[x y] z] l IH]; intros p; cbn [ev_tocs]; [auto|]. apply (IH (p + TocLength)). Qed.
Lemma sets_fix c : omap e_set (ev_fix c) = [] /\ omap e_get (ev_fix c) = [] /\ omap e_upd (ev_fix c) = [].
Proof. apply (sets_tocs (toc_entries (k_reg c)) HeaderLength). Qed.

Lemma inst_sets_keys ip ilen l : forall ioff, map fst (inst_sets ip ilen ioff l) = map (fun i => (ip, i.1)) l.
Proof. induction l as [|[n id] l IH]; intros; cbn; f_equal; auto. Qed.
Lemma val_upds_keys t mp vals : forall l, map fst (val_upds t mp vals l) = map (fun x => (mp, Some x.1)) vals.
Proof. induction vals as [|[n v] vals IH]; intros; cbn; f_equal; auto. Qed.

Lemma start_set_keys r pl ad : length (pl_doms pl) = length ad -> map fst (omap e_set (ev_doms r pl ad)) = concat (map dom_keys (pl_doms pl)).
Proof.
  rewrite (proj1 (sets_doms r pl ad)). revert ad. induction (pl_doms pl) as [|x l IH]; intros [|a ad] H; try discriminate; cbn [zip_with concat map]; [reflexivity|].
  rewrite map_app, IH by (cbn in H; lia). rewrite inst_sets_keys. reflexivity.
Qed.
Lemma start_upd_keys r pl am : length (pl_mets pl) = length am -> map fst (omap e_upd (ev_mets r pl am)) = concat (map met_keys (pl_mets pl)).
Proof.
  rewrite (proj2 (proj2 (sets_mets r pl am))). revert am. induction (pl_mets pl) as [|x l IH]; intros [|a am] H; try discriminate; cbn [zip_with concat map]; [reflexivity|].
  rewrite map_app, IH by (cbn in H; lia). f_equal. destruct x; cbn [met_upds met_keys]; [reflexivity|]. apply val_upds_keys.
Qed.

Lemma ileave_two_nil {A} (t tr : list A) : ileave [[]; []; t] tr -> tr = t.
Proof. intros H. apply (ileave_remove_nil []) in H. apply (ileave_remove_nil []) in H. cbn in H. by apply ileave_singleton_inv. Qed.

Lemma wlab_off L m off d : omap l_off (wlab L m off d) = [].
Proof.
  unfold wlab. destruct (_ <? _); [destruct m; reflexivity|]. destruct d; [reflexivity|]. destruct (_ <? _); [reflexivity|].
  induction (stores_of off (b :: d)); cbn; auto.
Qed.

(** ** The main summary of complete runs *)
Record start_result (c : cfg) (pl : plan) (upds : gmap vkey Z) (ad : list da) (am : list ma) (s : gst) : Prop := {
  sr_das : Forall2 da_ok (pl_doms pl) ad;
  sr_mas : Forall2 ma_ok (pl_mets pl) am;
  sr_panic : g_panic s = false;
  sr_len : zlen (g_buf s) = Length (k_reg c);
  sr_jobs : holds_jobs (g_buf s) (jobs (ev_start c pl ad am));
  sr_slots : forall k, exists A, A ≡ₚ filter pos (allocs k (ev_start c pl ad am)) /\ chained (base (k_reg c) k) A (limit (k_reg c) k);
  sr_tiles : exists R, R ≡ₚ map job_reg (jobs (ev_start c pl ad am)) /\ chained 0 R (Length (k_reg c));
  sr_gets : forall i v v', EGet i v ∈ ev_start c pl ad am -> ESet i v' ∈ ev_start c pl ad am -> v = v';
  sr_upds : forall k o, EUpd k o ∈ ev_start c pl ad am -> g_upd s !! k = Some o;
  sr_upds_other : forall k, k ∉ concat (map met_keys (pl_mets pl)) -> g_upd s !! k = upds !! k }.

Lemma omap_in {A B} (f : A -> option B) x y (l : list A) : x ∈ l -> f x = Some y -> y ∈ omap f l.
Proof. intros H1 H2. apply elem_of_list_omap. eauto. Qed.

Lemma chained_in_bounds J L : Forall job_fits J -> (exists R, R ≡ₚ map job_reg J /\ chained 0 R L) ->
  Forall (job_in L) J /\ Forall (fun j => 0 <= j.1.1.2 /\ j.1.1.2 + j.1.2 <= L) J /\ pairwise disj (map job_reg J).
Proof.
  intros Hf (R & HR & HC). pose proof (chained_bounds _ _ _ HC) as Hb. rewrite HR in Hb. rewrite Forall_map in Hb.
  split_and!.
  - apply Forall_forall. intros j Hj. rewrite Forall_forall in Hf, Hb. specialize (Hf _ Hj). specialize (Hb _ Hj).
    destruct Hf as [Hw Hf]. eapply Forall_impl; [exact Hf|]. unfold job_reg in Hb. cbn in *. lia.
  - eapply Forall_impl; [exact Hb|]. unfold job_reg. cbn. lia.
  - eapply pairwise_perm; [apply disj_sym|exact HR|]. eapply chained_pairwise; eauto.
Qed.

Lemma start_done c pl offs upds s :
  plan_wf (k_reg c) pl ->
  rtc (rstep (Length (k_reg c))) (start_state (k_reg c) offs upds, start_prog c pl) (s, PRet) ->
  exists ad am, start_result c pl upds ad am s.
Proof.
  intros Hwf Hrun. pose proof (pw_fit _ _ Hwf) as Hf.
  pose proof (good_steps _ _ _ _ Hrun (good_start c pl offs upds Hf)) as (_ & _ & Hinv). cbn [fst snd] in Hinv.
  apply rsteps_psteps in Hrun as (tr & Hps & Hac). cbn [fst snd] in Hps, Hac.
  apply psteps_complete in Hps; [|by apply spn_start].
  apply sum_start in Hps as (_ & ad & am & trh & trt & trd & trm & tr1 & Had & Ham & Sh & St & Sd & Sm & Hil & -> & _ & Hsum).
  exists ad, am.
  pose proof (Forall2_length _ _ _ Had) as Hld. pose proof (Forall2_length _ _ _ Ham) as Hlm.
  destruct (start_tiles c pl ad am _ s Hf Hld Hlm Hsum) as (HR & HA & Htile).
  { right. exists offs, upds. exact Hac. }
  { intros k Hk. specialize (Hinv k Hk). cbn [holds] in Hinv. destruct (g_ch s k); try done. eauto. }
  pose proof (fits_start c pl ad am Hwf) as Hfit.
  destruct (chained_in_bounds _ _ Hfit Htile) as (Hin & Hin' & Hdis).
  pose proof Hsum as (_ & _ & _ & _ & Hupd & Hbytes). destruct (Hbytes Hin) as [Hnp Hib].
  split; auto.
  - destruct (g_panic s) eqn:E; [|auto]. apply (acts_panic _ _ _ Hac) in E as [E|E]; [discriminate|]. contradiction.
  - rewrite (acts_buf _ _ _ Hac), do_stores_length. cbn. apply zlen_zeros.
    destruct Htile as (R & _ & HC). apply chained_le in HC. exact HC.
  - rewrite (acts_buf _ _ _ Hac). apply jobs_final; auto.
  - intros i v v' Hg Hs.
    pose proof (acts_off _ _ _ Hac) as Ho. rewrite omap_app, wlab_off, app_nil_r in Ho.
    apply (ileave_omap l_off) in Hil. cbn [map] in Hil. rewrite omap_app in Hil.
    assert (forall tr E, sumok (Length (k_reg c)) tr E -> omap e_set E = [] -> omap l_set tr = []) as Hns.
    { intros t E (_ & _ & H & _) H0. rewrite H0 in H. apply Permutation_nil_r in H. exact H. }
    assert (forall tr E, sumok (Length (k_reg c)) tr E -> omap e_get E = [] -> omap l_get tr = []) as Hng.
    { intros t E (_ & _ & _ & H & _) H0. rewrite H0 in H. apply Permutation_nil_r in H. exact H. }
    destruct (sets_tocs (toc_entries (k_reg c)) HeaderLength) as (T1 & T2 & _).
    destruct (sets_doms (k_reg c) pl ad) as (D1 & D2 & _). destruct (sets_mets (k_reg c) pl am) as (M1 & M2 & _).
    destruct (sets_fix c) as (F1 & F2 & _).
    rewrite (off_none trh), (off_none trt) in Hil by (eapply Hns || eapply Hng; eassumption || reflexivity).
    rewrite (off_sets trd), (off_gets trm) in Hil by (eapply Hns || eapply Hng; eassumption).
    apply ileave_two_nil in Hil. rewrite Hil, orun_sets in Ho. cbn [g_off start_state] in Ho. apply orun_gets in Ho as [_ HF].
    destruct Sd as (_ & _ & Sd & _). destruct Sm as (_ & _ & _ & Sm & _).
    rewrite ev_start_app in Hg, Hs.
    assert ((i, v') ∈ omap l_set trd) as Hs'.
    { rewrite Sd. apply (omap_in e_set _ (i, v')) in Hs; [|reflexivity]. rewrite !omap_app in Hs. rewrite F1, M1, app_nil_r in Hs. exact Hs. }
    assert ((i, v) ∈ omap l_get trm) as Hg'.
    { rewrite Sm. apply (omap_in e_get _ (i, v)) in Hg; [|reflexivity]. rewrite !omap_app in Hg. rewrite F2, D2 in Hg. exact Hg. }
    rewrite Forall_forall in HF. specialize (HF _ Hg'). cbn in HF.
    rewrite (foldl_ins_in _ _ i v') in HF; [exact HF| |exact Hs'].
    rewrite Sd. fold (ev_doms (k_reg c) pl ad). rewrite start_set_keys by auto. apply (pw_okeys _ _ Hwf).
  - intros k o Hk. rewrite (acts_upd _ _ _ Hac). cbn [g_upd start_state]. apply foldl_ins_in.
    + rewrite Hupd, ev_start_app, !omap_app. rewrite (proj2 (proj2 (sets_fix c))), (proj2 (proj2 (sets_doms _ _ _))).
      cbn [app]. rewrite start_upd_keys by auto. apply (pw_vkeys _ _ Hwf).
    + rewrite Hupd. eapply omap_in; eauto.
  - intros k Hk. rewrite (acts_upd _ _ _ Hac). cbn [g_upd start_state]. apply foldl_ins_notin.
    rewrite Hupd, ev_start_app, !omap_app. rewrite (proj2 (proj2 (sets_fix c))), (proj2 (proj2 (sets_doms _ _ _))).
    cbn [app]. rewrite start_upd_keys by auto. exact Hk.
Qed.

(** ** Closures, whatever the plan *)
Inductive uk (K : vkey -> Prop) : prog -> Prop :=
| uk_ret : uk K PRet
| uk_write m o d k : uk K k -> uk K (PWrite m o d k)
| uk_take c k : (forall v, uk K (k v)) -> uk K (PTake c k)
| uk_put c v k : uk K k -> uk K (PPut c v k)
| uk_setoff i v k : uk K k -> uk K (PSetOff i v k)
| uk_getoff i k : (forall v, uk K (k v)) -> uk K (PGetOff i k)
| uk_upd key o k : K key -> uk K k -> uk K (PSetUpd key o k)
| uk_go c k : uk K c -> uk K k -> uk K (PGo c k)
| uk_wg n kids b k : Forall (uk K) kids -> uk K b -> uk K k -> uk K (PWg n kids b k).

Lemma uk_step K L p l p' : pstep L p l p' -> uk K p -> uk K p' /\ forall key o, l = Some (LUpd key o) -> K key.
Proof.
  induction 1 as [m off data k l p Hw|c k v|c v k|i v k|i v k|i o k|n kids c b k|n kids b l b' k Hs IH|n l1 p l2 l p' b k Hs IH|n l1 l2 b k|k|kids k N1 N2]; intros U.
  - inversion U; subst. assert (uk K p /\ (l = None \/ l = Some LPanic \/ exists o b, l = Some (LByte o b))) as [H1 H2].
    { unfold write_step in Hw. repeat case_match; simplify_eq; split; eauto; by constructor. }
    split; [exact H1|]. intros key o E. destruct H2 as [->|[->|(? & ? & ->)]]; discriminate.
  - inversion U; subst. split; [auto|discriminate].
  - inversion U; subst. split; [auto|discriminate].
  - inversion U; subst. split; [auto|discriminate].
  - inversion U; subst. split; [auto|discriminate].
  - inversion U; subst. split; [auto|]. intros; simplify_eq; auto.
  - inversion U as [| | | | | | | |? ? ? ? H1 H2 H3]; subst. inversion H2; subst. split; [|discriminate]. constructor; auto. apply Forall_app; auto.
  - inversion U as [| | | | | | | |? ? ? ? H1 H2 H3]; subst. destruct (IH H2). split; [by constructor|auto].
  - inversion U as [| | | | | | | |? ? ? ? H1 H2 H3]; subst. apply Forall_app in H1 as [H1 H4]. inversion H4; subst. destruct IH; auto.
    split; [|auto]. constructor; auto. apply Forall_app; auto.
  - inversion U as [| | | | | | | |? ? ? ? H1 H2 H3]; subst. apply Forall_app in H1 as [H1 H4]. inversion H4; subst.
    split; [|destruct (_ <? _); discriminate]. constructor; auto. apply Forall_app; auto.
  - inversion U; subst. split; [auto|discriminate].
  - inversion U; subst. split; [|discriminate]. constructor; auto using uk_ret.
Qed.

Lemma uk_run K L x y : rtc (rstep L) x y -> uk K x.2 -> forall k, ~ K k -> g_upd y.1 !! k = g_upd x.1 !! k.
Proof.
  induction 1 as [x|x y z (l & Hs & Ha) H IH]; intros U k Hk; [reflexivity|]. destruct (uk_step K _ _ _ _ Hs U) as [U' Hl].
  rewrite (IH U' k Hk). clear IH H Hs U U'. destruct x as [sx px], y as [sy py]. cbn [fst snd] in *. destruct l as [[]|]; cbn [act] in Ha.
  all: repeat match type of Ha with context [match ?e with _ => _ end] => destruct e end; try discriminate; injection Ha as <-; cbn; try reflexivity.
  rewrite lookup_insert_ne; [reflexivity|]. intros ->. apply Hk. eauto.
Qed.

Lemma uk_gos K l k : Forall (uk K) l -> uk K k -> uk K (gos l k).
Proof. induction 1; cbn; intros; [assumption|]. constructor; auto. Qed.

Ltac uk_tac := repeat first [progress intros | apply uk_ret | apply uk_write | apply uk_take | apply uk_put | apply uk_setoff | apply uk_getoff
  | apply uk_go | assumption | apply uk_upd; [assumption|]].

Lemma uk_opt K s k : (forall v, uk K (k v)) -> uk K (opt_string s k).
Proof. intros H. unfold opt_string, alloc, w_str. destruct (nonempty s); uk_tac; apply H. Qed.

Lemma uk_value (K : vkey -> Prop) t v off key : K key -> uk K (writeValue t v off key).
Proof.
  intros H. unfold writeValue, w_i64, alloc, update_prog. destruct (_ =? _); destruct v; try destruct (val_bytes _); uk_tac.
Qed.

Lemma uk_desc K v2 d iid off : uk K (writeMetricDesc v2 d iid off).
Proof.
  unfold writeMetricDesc, w_i64, w_str, w_i32, alloc. destruct v2; uk_tac; apply uk_opt; uk_tac; apply uk_opt; uk_tac.
Qed.

Lemma uk_start c pl : uk (fun k => k ∈ concat (map met_keys (pl_mets pl))) (start_prog c pl).
Proof.
  set (K := fun k => _). unfold start_prog, w_i64. apply uk_wg; [constructor| |uk_tac]. apply uk_go; [unfold writeHeaderBlock, w_str, w_i32, w_i64; uk_tac|].
  apply uk_go.
  { unfold writeTocBlock. apply uk_wg; [constructor| |constructor]. apply uk_gos; [|constructor]. generalize HeaderLength.
    induction (toc_entries (k_reg c)) as [|[[id cnt] o] l IH]; intros pos; cbn [toc_progs]; constructor; [|apply IH].
    unfold writeSingleToc, w_i32, w_i64. uk_tac. }
  apply uk_go; [|constructor]. unfold writeInstanceDomains. apply uk_wg; [constructor| |].
  - apply uk_gos; [|constructor]. apply Forall_fmap, Forall_forall. intros [[ip d] insts] _. cbn. unfold writeInstanceDomain, alloc, w_i32, w_i64. uk_tac.
    apply uk_wg; [constructor| |constructor]. uk_tac. apply uk_gos; [|apply uk_opt; uk_tac; apply uk_opt; uk_tac].
    match goal with |- Forall _ (instance_progs ?a ?b ?c0 ?d0 ?e insts) => generalize e end.
    induction insts as [|[n id] l IH]; intros o; cbn [instance_progs]; constructor; [|apply IH].
    unfold writeInstance, w_i32, w_i64, w_str, alloc. destruct (r_version2 _); uk_tac.
  - unfold writeMetrics. apply uk_wg; [constructor| |constructor]. apply uk_gos; [|constructor].
    apply Forall_fmap, Forall_forall. intros m Hm. cbn.
    assert (forall k, k ∈ met_keys m -> K k) as HK. { intros k Hk. unfold K. apply elem_of_list_In, in_concat. exists (met_keys m). split; [|by apply elem_of_list_In].
      apply in_map, elem_of_list_In, Hm. }
    destruct m as [mp d v|mp d ip dom0 vals]; cbn [writeMetric met_keys] in *.
    + unfold writeSingletonMetric, alloc, w_i64. apply uk_wg; [constructor| |constructor]. uk_tac; [apply uk_desc|]. apply uk_value, HK. left.
    + unfold writeInstanceMetric. apply uk_wg; [constructor| |constructor]. uk_tac; [apply uk_desc|]. clear Hm.
      induction vals as [|[n v0] l IH]; cbn [instance_values]; [constructor|]. unfold alloc, w_i64. uk_tac; [apply uk_value, HK; left|].
      apply IH. intros k Hk. apply HK. by right.
Qed.

(** Whatever the plan, start() installs closures for planned values only. *)
Lemma start_upds_other c pl offs upds s p :
  rtc (rstep (Length (k_reg c))) (start_state (k_reg c) offs upds, start_prog c pl) (s, p) ->
  forall k, k ∉ concat (map met_keys (pl_mets pl)) -> g_upd s !! k = upds !! k.
Proof. intros Hrun k Hk. apply (uk_run _ _ _ _ Hrun (uk_start c pl) k Hk). Qed.
