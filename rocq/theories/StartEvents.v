(** Summaries of complete executions of every function called by start(). *)
From Verif Require Import Base BaseFacts Floats GoVal MetricType ByteWriter Hash Units Indom Metrics Registry Prog
  Client Ileave ProgProofs Events.

(** ** Summaries as functions of the slots handed out *)

Definition CI := Some CInstance. Definition CD := Some CIndom. Definition CM := Some CMetric.
Definition CV := Some CValue. Definition CS := Some CString.

Definition ev_str (s : gostring) (so : Z) : list ev :=
  if nonempty s then [EAlloc CString so StringLength; EJob CS so StringLength [s]] else [].

Definition ev_header (c : cfg) : list ev :=
  [EJob None 0 4 [str "MMV"];
   EJob None 4 4 [le_enc 4 (if r_version2 (k_reg c) then 2 else 1)];
   EJob None 8 8 [le_enc 8 (k_gen c)];
   EJob None 24 4 [le_enc 4 (to_signed 32 (tocCount (k_reg c)))];
   EJob None 28 4 [le_enc 4 (to_signed 32 (k_flag c))];
   EJob None 32 4 [le_enc 4 (to_signed 32 (k_pid c))];
   EJob None 36 4 [le_enc 4 (k_cluster c)]].

Fixpoint ev_tocs (pos : Z) (l : list (Z * Z * Z)) : list ev :=
  match l with
  | [] => []
  | (id, cnt, off) :: l =>
      EJob None pos 4 [le_enc 4 id] :: EJob None (pos + 4) 4 [le_enc 4 (to_signed 32 cnt)]
      :: EJob None (pos + 8) 8 [le_enc 8 off] :: ev_tocs (pos + TocLength) l
  end.

Definition ev_inst (v2 : bool) (ip : nat) (name : gostring) (id indomoff off soff : Z) : list ev :=
  [ESet (ip, name) off;
   EJob CI off 8 [le_enc 8 indomoff];
   EJob CI (off + 8) 4 [le_enc 4 0];
   EJob CI (off + 12) 4 [le_enc 4 id]]
  ++ (if v2 then [EAlloc CString soff StringLength; EJob CI (off + 16) 8 [le_enc 8 soff];
                  EJob CS soff StringLength [name]]
      else [EJob CI (off + 16) 64 [name]]).

Fixpoint ev_insts (v2 : bool) (ip : nat) (inoff ilen ioff : Z) (l : list (gostring * Z)) (ss : list Z) : list ev :=
  match l with
  | [] => []
  | (n, id) :: l => ev_inst v2 ip n id inoff ioff (hd 0 ss) ++ ev_insts v2 ip inoff ilen (ioff + ilen) l (tl ss)
  end.

Record da := mkDa { da_off : Z; da_ioff : Z; da_so : Z; da_lo : Z; da_is : list Z }.

Definition ev_dom (r : registry) (x : nat * indom * list (gostring * Z)) (a : da) : list ev :=
  let d := x.1.2 in
  [EAlloc CIndom (da_off a) InstanceDomainLength;
   EAlloc CInstance (da_ioff a) (InstanceLength r * instance_count d);
   EJob CD (da_off a) 4 [le_enc 4 (id_id d)];
   EJob CD (da_off a + 4) 4 [le_enc 4 (to_signed 32 (instance_count d))];
   EJob CD (da_off a + 8) 8 [le_enc 8 (da_ioff a)];
   EJob CD (da_off a + 16) 8 [le_enc 8 (da_so a)];
   EJob CD (da_off a + 24) 8 [le_enc 8 (da_lo a)]]
  ++ ev_str (id_short d) (da_so a) ++ ev_str (id_long d) (da_lo a)
  ++ ev_insts (r_version2 r) x.1.1 (da_off a) (InstanceLength r) (da_ioff a) x.2 (da_is a).

(** The writes of the update closure. *)
Definition upd_ds (v : goval) : list (bool * list byte) :=
  match v with
  | VStr s => [(true, zeros StringLength); (false, s)]
  | v => match val_bytes v with Some d => [(false, d)] | None => [] end
  end.

Definition ev_val (t : Z) (v : goval) (off so : Z) (key : vkey) : list ev :=
  if t =? StringType then
    [EJob CV off 8 [le_enc 8 (StringLength - 1)]; EAlloc CString so StringLength;
     EJob CV (off + 8) 8 [le_enc 8 so]; EJob CS so StringLength (upd_ds v).*2; EUpd key so]
  else [EJob CV (off + 8) 8 []; EJob CV off 8 (upd_ds v).*2; EUpd key off].

Record va := mkVa { va_off : Z; va_so : Z; va_io : Z }.
Record ma := mkMa { ma_off : Z; ma_no : Z; ma_so : Z; ma_lo : Z; ma_vs : list va }.

Definition ev_rest (d : mdesc) (iid : option Z) (off so lo : Z) : list ev :=
  [EJob CM off 4 [le_enc 4 (md_id d)];
   EJob CM (off + 4) 4 [le_enc 4 (md_type d)];
   EJob CM (off + 8) 4 [le_enc 4 (md_sem d)];
   EJob CM (off + 12) 4 [le_enc 4 (md_unit d)];
   EJob CM (off + 16) 4 [le_enc 4 (match iid with Some i => i | None => -1 end)];
   EJob CM (off + 20) 4 [le_enc 4 0];
   EJob CM (off + 24) 8 [le_enc 8 so];
   EJob CM (off + 32) 8 [le_enc 8 lo]]
  ++ ev_str (md_short d) so ++ ev_str (md_long d) lo.

Definition ev_desc (v2 : bool) (d : mdesc) (iid : option Z) (a : ma) : list ev :=
  if v2 then
    [EAlloc CString (ma_no a) StringLength; EJob CM (ma_off a) 8 [le_enc 8 (ma_no a)];
     EJob CS (ma_no a) StringLength [md_name d]]
    ++ ev_rest d iid (ma_off a + 8) (ma_so a) (ma_lo a)
  else EJob CM (ma_off a) 64 [md_name d] :: ev_rest d iid (ma_off a + 64) (ma_so a) (ma_lo a).

Definition va0 : va := mkVa 0 0 0.

Definition ev_v1 (t : Z) (key : vkey) (doff : Z) (get : list ev) (v : goval) (a : va) : list ev :=
  EAlloc CValue (va_off a) ValueLength :: ev_val t v (va_off a) (va_so a) key
  ++ [EJob CV (va_off a + 16) 8 [le_enc 8 doff]; EJob CV (va_off a + 24) 8 [le_enc 8 (va_io a)]] ++ get.

Fixpoint ev_vals (t : Z) (mp ip : nat) (doff : Z) (vals : list (gostring * goval)) (l : list va) : list ev :=
  match vals with
  | [] => []
  | (n, v) :: vals =>
      ev_v1 t (mp, Some n) doff [EGet (ip, n) (va_io (hd va0 l))] v (hd va0 l)
      ++ ev_vals t mp ip doff vals (tl l)
  end.

Definition mlen (v2 : bool) : Z := if v2 then Metric2Length else Metric1Length.

Definition ev_met (v2 : bool) (m : mplan) (a : ma) : list ev :=
  match m with
  | MPSingle mp d v =>
      EAlloc CMetric (ma_off a) (mlen v2) :: ev_desc v2 d None a
      ++ ev_v1 (md_type d) (mp, None) (ma_off a) [] v (hd va0 (ma_vs a))
  | MPInst mp d ip dom vals =>
      EAlloc CMetric (ma_off a) (mlen v2) :: ev_desc v2 d (Some (id_id dom)) a
      ++ ev_vals (md_type d) mp ip (ma_off a) vals (ma_vs a)
  end.

Definition single_ok (m : mplan) (a : ma) : Prop :=
  match m with MPSingle _ _ _ => va_io (hd va0 (ma_vs a)) = 0 | _ => True end.

(** Offsets of absent strings are 0. *)
Definition da_ok (x : nat * indom * list (gostring * Z)) (a : da) : Prop :=
  (id_short x.1.2 = [] -> da_so a = 0) /\ (id_long x.1.2 = [] -> da_lo a = 0).
Definition mp_desc (m : mplan) : mdesc := match m with MPSingle _ d _ | MPInst _ d _ _ _ => d end.
Definition ma_ok (m : mplan) (a : ma) : Prop :=
  (md_short (mp_desc m) = [] -> ma_so a = 0) /\ (md_long (mp_desc m) = [] -> ma_lo a = 0) /\ single_ok m a.

(** ** Proofs *)

Lemma sumok_job_cons L m t lo w d tr E :
  sumok L tr E -> sumok L (wlab L m lo d ++ tr) (EJob t lo w [d] :: E).
Proof. intros H. apply (sumok_app _ _ _ [_]); [apply sumok_write|exact H]. Qed.

Lemma sumok_take_cons L c v tr E : sumok L tr E -> sumok L (LTake c v :: tr) (ETake c v :: E).
Proof. intros H. apply (sumok_app _ [_] _ [_]); [apply sumok_take|exact H]. Qed.
Lemma sumok_put_cons L c v tr E : sumok L tr E -> sumok L (LPut c v :: tr) (EPut c v :: E).
Proof. intros H. apply (sumok_app _ [_] _ [_]); [apply sumok_put|exact H]. Qed.
Lemma sumok_set_cons L c v tr E : sumok L tr E -> sumok L (LSetOff c v :: tr) (ESet c v :: E).
Proof. intros H. apply (sumok_app _ [_] _ [_]); [apply sumok_set|exact H]. Qed.
Lemma sumok_get_cons L c v tr E : sumok L tr E -> sumok L (LGetOff c v :: tr) (EGet c v :: E).
Proof. intros H. apply (sumok_app _ [_] _ [_]); [apply sumok_get|exact H]. Qed.
Lemma sumok_upd_cons L c v tr E : sumok L tr E -> sumok L (LUpd c v :: tr) (EUpd c v :: E).
Proof. intros H. apply (sumok_app _ [_] _ [_]); [apply sumok_upd|exact H]. Qed.
Lemma sumok_alloc_cons L c v n tr E : sumok L tr E -> sumok L (LTake c v :: LPut c (v + n) :: tr) (EAlloc c v n :: E).
Proof. intros H. apply sumok_alloc. apply sumok_take_cons, sumok_put_cons. exact H. Qed.

Lemma ctr_alloc L c n k tr T : ctr L (alloc c n k) tr T ->
  exists v tr', tr = LTake c v :: LPut c (v + n) :: tr' /\ ctr L (k v) tr' T.
Proof. cbn. intros (v & tr1 & -> & tr2 & -> & H). eauto. Qed.

Lemma ctr_opt_string L s k tr T : ctr L (opt_string s k) tr T ->
  exists so tr', ctr L (k so) tr' T /\ (s = [] -> so = 0) /\
    forall E, sumok L tr' E -> sumok L tr (ev_str s so ++ E).
Proof.
  unfold opt_string, ev_str. destruct (nonempty s) eqn:En.
  - intros H. apply ctr_alloc in H as (v & tr1 & -> & H). cbn in H. destruct H as (tr2 & -> & H).
    exists v, tr2. split; [auto|]. split.
    { intros ->. discriminate. }
    intros E HE. cbn [app]. apply sumok_alloc_cons, sumok_job_cons, HE.
  - intros H. exists 0, tr. split_and!; auto.
Qed.

Lemma ctr_update L off v k tr T : ctr L (update_prog off v k) tr T ->
  exists tr', tr = wlabs L off (upd_ds v) ++ tr' /\ ctr L k tr' T.
Proof.
  unfold update_prog, upd_ds. destruct v; cbn [val_bytes]; cbn [ctr wlabs].
  all: try (intros (tr' & -> & H); exists tr'; rewrite app_nil_r; auto; fail).
  all: try (intros H; exists tr; split; [reflexivity|exact H]; fail).
  intros (t1 & -> & t2 & -> & H). exists t2. rewrite app_nil_r, app_assoc. auto.
Qed.

Lemma sum_header L c tr T : ctr L (writeHeaderBlock c) tr T -> T = [] /\ sumok L tr (EJob None 16 8 [le_enc 8 0] :: ev_header c).
Proof.
  unfold writeHeaderBlock, w_str, w_i32, w_i64. cbn [ctr].
  intros (t1 & -> & t2 & -> & t3 & -> & t4 & -> & t5 & -> & t6 & -> & t7 & -> & t8 & -> & -> & ->).
  split; [reflexivity|]. unfold ev_header.
  eapply sumok_perm; [|do 8 eapply sumok_job_cons; apply sumok_nil].
  perm.
Qed.

Lemma sum_toc1 L pos id cnt off tr T : ctr L (writeSingleToc pos id cnt off) tr T ->
  T = [] /\ sumok L tr [EJob None pos 4 [le_enc 4 id]; EJob None (pos + 4) 4 [le_enc 4 (to_signed 32 cnt)];
             EJob None (pos + 8) 8 [le_enc 8 off]].
Proof.
  unfold writeSingleToc, w_i32, w_i64. cbn [ctr].
  intros (t1 & -> & t2 & -> & t3 & -> & -> & ->). split; [reflexivity|].
  do 3 eapply sumok_job_cons. apply sumok_nil.
Qed.

Lemma sum_tocs L l : forall pos ts, Forall2 (fun c t => ctr L c t []) (toc_progs pos l) ts ->
  exists Es, Forall2 (sumok L) ts Es /\ concat Es = ev_tocs pos l.
Proof.
  induction l as [|[[id cnt] off] l IH]; intros pos ts H; cbn in H.
  - inversion H; subst. exists []. split; [constructor|reflexivity].
  - inversion H as [|? t ? ts' Ht Hts]; subst. apply sum_toc1 in Ht as [_ Ht].
    destruct (IH _ _ Hts) as (Es & HEs & HE).
    eexists (_ :: Es). split; [constructor; eauto|]. cbn. rewrite HE. reflexivity.
Qed.

Lemma ctr_wg_gos L n cs k tr T : ctr L (PWg n [] (gos cs PRet) k) tr T ->
  exists ts tr1 tr2, tr = tr1 ++ tr2 /\ Forall2 (fun c t => ctr L c t []) cs ts /\ ileave ts tr1 /\ ctr L k tr2 T.
Proof.
  intros H. apply ctr_wg in H as (tks & tb & Tb & tr1 & tr2 & -> & HF & Hb & Hi & Hk).
  inversion HF; subst. cbn in Hi.
  apply ctr_gos in Hb as (ts & T' & -> & HF2 & Hr). cbn in Hr. destruct Hr as [-> ->].
  rewrite app_nil_r in Hi. exists ts, tr1, tr2. split_and!; auto.
  apply (ileave_remove_nil []). exact Hi.
Qed.

Lemma sum_toc L r tr T : ctr L (writeTocBlock r) tr T ->
  T = [] /\ sumok L tr (ev_tocs HeaderLength (toc_entries r)).
Proof.
  unfold writeTocBlock. intros H. apply ctr_wg_gos in H as (ts & tr1 & tr2 & -> & HF & Hi & Hk).
  cbn in Hk. destruct Hk as [-> ->]. split; [reflexivity|]. rewrite app_nil_r.
  apply sum_tocs in HF as (Es & HEs & <-). eapply sumok_ileave; eauto.
Qed.

Lemma sum_instance L v2 ip n id io off tr T : ctr L (writeInstance v2 ip n id io off) tr T ->
  T = [] /\ exists so, sumok L tr (ev_inst v2 ip n id io off so).
Proof.
  unfold writeInstance, w_i32, w_i64, w_str, ev_inst. cbn [ctr].
  intros (t1 & -> & t2 & -> & t3 & -> & t4 & -> & H).
  destruct v2.
  - apply ctr_alloc in H as (so & t5 & -> & H). cbn in H. destruct H as (t6 & -> & t7 & -> & -> & ->).
    split; [reflexivity|]. exists so. cbn [app].
    apply sumok_set_cons. do 3 eapply sumok_job_cons. apply sumok_alloc_cons. do 2 eapply sumok_job_cons. apply sumok_nil.
  - cbn in H. destruct H as (t5 & -> & -> & ->). split; [reflexivity|]. exists 0. cbn [app].
    apply sumok_set_cons. do 4 eapply sumok_job_cons. apply sumok_nil.
Qed.

Lemma sum_instances L v2 ip io ilen l : forall ioff ts,
  Forall2 (fun c t => ctr L c t []) (instance_progs v2 ip io ilen ioff l) ts ->
  exists ss Es, Forall2 (sumok L) ts Es /\ concat Es = ev_insts v2 ip io ilen ioff l ss.
Proof.
  induction l as [|[n id] l IH]; intros ioff ts H; cbn in H.
  - inversion H; subst. exists [], []. split; [constructor|reflexivity].
  - inversion H as [|? t ? ts' Ht Hts]; subst. apply sum_instance in Ht as [_ [so Ht]].
    destruct (IH _ _ Hts) as (ss & Es & HEs & HE).
    exists (so :: ss), (ev_inst v2 ip n id io ioff so :: Es). split; [constructor; eauto|]. cbn. rewrite HE. reflexivity.
Qed.

Lemma sum_dom L r ip d insts tr T : ctr L (writeInstanceDomain r ip d insts) tr T ->
  T = [] /\ exists a, da_ok (ip, d, insts) a /\ sumok L tr (ev_dom r (ip, d, insts) a).
Proof.
  unfold writeInstanceDomain, w_i32, w_i64. intros H.
  apply ctr_alloc in H as (off & t1 & -> & H).
  apply ctr_alloc in H as (ioff & t2 & -> & H).
  apply ctr_wg in H as (tks & tb & Tb & tr1 & tr2 & -> & HF & Hb & Hi & Hk).
  inversion HF; subst. cbn in Hk. destruct Hk as [-> ->]. split; [reflexivity|]. rewrite app_nil_r.
  cbn in Hi. cbn [ctr] in Hb. destruct Hb as (u1 & -> & u2 & -> & u3 & -> & Hb).
  apply ctr_gos in Hb as (ts & T' & -> & HF2 & Hb).
  apply ctr_opt_string in Hb as (so & u4 & Hb & Hso & Eso).
  apply ctr_opt_string in Hb as (lo & u5 & Hb & Hlo & Elo).
  cbn [ctr] in Hb. destruct Hb as (u6 & -> & u7 & -> & -> & ->).
  rewrite app_nil_r in Hi.
  apply sum_instances in HF2 as (ss & Es & HEs & HE).
  exists (mkDa off ioff so lo ss). split; [split; auto|].
  unfold ev_dom; cbn.
  apply sumok_alloc_cons, sumok_alloc_cons.
  rewrite <- HE.
  eapply sumok_perm; [|eapply sumok_ileave; [exact Hi|constructor; [|exact HEs]]].
  2: { do 3 eapply sumok_job_cons. apply Eso. apply Elo. do 2 eapply sumok_job_cons. apply sumok_nil. }
  cbn [concat app]. perm.
Qed.

Lemma sum_doms L r doms ts : Forall2 (fun c t => ctr L c t []) ((fun x => writeInstanceDomain r x.1.1 x.1.2 x.2) <$> doms) ts ->
  exists asg Es, Forall2 (sumok L) ts Es /\ Forall2 da_ok doms asg /\ Es = zip_with (ev_dom r) doms asg.
Proof.
  revert ts; induction doms as [|[[ip d] insts] doms IH]; intros ts H; cbn in H.
  - inversion H; subst. exists [], []. repeat constructor.
  - inversion H as [|? t ? ts' Ht Hts]; subst. apply sum_dom in Ht as [_ (a & Ha & Ht)].
    destruct (IH _ Hts) as (asg & Es & HEs & HO & ->).
    eexists (a :: asg), _. split_and!; [constructor; eauto|constructor; eauto|reflexivity].
Qed.

Lemma sum_value L t v off key tr T : ctr L (writeValue t v off key) tr T ->
  T = [] /\ exists so, sumok L tr (ev_val t v off so key).
Proof.
  unfold writeValue, w_i64, ev_val. destruct (t =? StringType).
  - cbn [ctr]. intros (t1 & -> & H). apply ctr_alloc in H as (so & t2 & -> & H). cbn [ctr] in H.
    destruct H as (t3 & -> & H). apply ctr_update in H as (t4 & -> & H). cbn in H.
    destruct H as (t5 & -> & -> & ->). split; [reflexivity|]. exists so.
    apply sumok_job_cons, sumok_alloc_cons, sumok_job_cons.
    apply (sumok_app _ _ _ [_]); [apply sumok_writes|]. apply sumok_upd.
  - intros H. apply ctr_update in H as (t4 & -> & H). cbn in H.
    destruct H as (t5 & -> & -> & ->). split; [reflexivity|]. exists 0. apply sumok_hole.
    apply (sumok_app _ _ _ [_]); [apply sumok_writes|]. apply sumok_upd.
Qed.

Lemma sum_rest L d iid off tr T :
  ctr L (w_i32 off (md_id d)
    (w_i32 (off + 4) (md_type d)
    (w_i32 (off + 8) (md_sem d)
    (w_i32 (off + 12) (md_unit d)
    (w_i32 (off + 16) (match iid with Some i => i | None => -1 end)
    (w_i32 (off + 20) 0
    (opt_string (md_short d) (fun so =>
     opt_string (md_long d) (fun lo =>
     w_i64 (off + 24) so (w_i64 (off + 32) lo PRet)))))))))) tr T ->
  T = [] /\ exists so lo, (md_short d = [] -> so = 0) /\ (md_long d = [] -> lo = 0) /\ sumok L tr (ev_rest d iid off so lo).
Proof.
  unfold w_i32, w_i64. cbn [ctr].
  intros (t1 & -> & t2 & -> & t3 & -> & t4 & -> & t5 & -> & t6 & -> & H).
  apply ctr_opt_string in H as (so & u4 & H & Hso & Eso).
  apply ctr_opt_string in H as (lo & u5 & H & Hlo & Elo).
  cbn [ctr] in H. destruct H as (u6 & -> & u7 & -> & -> & ->).
  split; [reflexivity|]. exists so, lo. split_and!; auto. unfold ev_rest. cbn [app].
  do 6 eapply sumok_job_cons.
  eapply sumok_perm; [|apply Eso; apply Elo; do 2 eapply sumok_job_cons; apply sumok_nil].
  perm.
Qed.

Lemma sum_desc L v2 d iid off tr T : ctr L (writeMetricDesc v2 d iid off) tr T ->
  T = [] /\ exists a, ma_off a = off /\ (md_short d = [] -> ma_so a = 0) /\ (md_long d = [] -> ma_lo a = 0) /\
    forall vs, sumok L tr (EPut CMetric (off + mlen v2) :: ev_desc v2 d iid (mkMa off (ma_no a) (ma_so a) (ma_lo a) vs)).
Proof.
  unfold writeMetricDesc. destruct v2; cbn zeta; intros H; cbn [ctr] in H.
  - destruct H as (t1 & -> & H). apply ctr_alloc in H as (no & t2 & -> & H). cbn [ctr w_i64 w_str] in H.
    destruct H as (t3 & -> & t4 & -> & H).
    apply sum_rest in H as (-> & so & lo & Hso & Hlo & H). split; [reflexivity|].
    exists (mkMa off no so lo []). split_and!; auto. intros vs. unfold ev_desc; cbn [ma_off ma_no ma_so ma_lo app].
    apply sumok_put_cons, sumok_alloc_cons. do 2 eapply sumok_job_cons. exact H.
  - destruct H as (t1 & -> & H). cbn [ctr w_i64 w_str] in H. destruct H as (t2 & -> & H).
    apply sum_rest in H as (-> & so & lo & Hso & Hlo & H). split; [reflexivity|].
    exists (mkMa off 0 so lo []). split_and!; auto. intros vs. unfold ev_desc; cbn [ma_off ma_no ma_so ma_lo].
    apply sumok_put_cons. eapply sumok_job_cons. exact H.
Qed.

Lemma sum_single L v2 mp d v tr T : ctr L (writeSingletonMetric v2 mp d v) tr T ->
  T = [] /\ exists a, ma_ok (MPSingle mp d v) a /\ sumok L tr (ev_met v2 (MPSingle mp d v) a).
Proof.
  unfold writeSingletonMetric. intros H.
  apply ctr_wg in H as (tks & tb & Tb & tr1 & tr2 & -> & HF & Hb & Hi & Hk).
  inversion HF; subst. cbn in Hk. destruct Hk as [-> ->]. split; [reflexivity|]. rewrite app_nil_r.
  cbn [ctr] in Hb. destruct Hb as (doff & u1 & -> & tc & T1 & -> & Hd & Hb).
  apply ctr_alloc in Hb as (off & u2 & -> & Hb). cbn [ctr w_i64] in Hb.
  destruct Hb as (tv & T2 & -> & Hv & u3 & -> & u4 & -> & -> & ->).
  apply sum_desc in Hd as (_ & a & Ha & Hso & Hlo & Hd).
  apply sum_value in Hv as (_ & so & Hv).
  exists (mkMa doff (ma_no a) (ma_so a) (ma_lo a) [mkVa off so 0]).
  split; [split; [auto|split; [auto|reflexivity]]|]. cbn [ev_met ma_off ma_vs hd].
  apply sumok_alloc.
  eapply sumok_perm; [|eapply sumok_ileave; [exact Hi|]].
  2: { cbn [app]. constructor; [|constructor; [apply Hd|constructor; [apply Hv|constructor]]].
       apply sumok_take_cons, sumok_alloc_cons. unfold MaxDataValueSize.
       replace (off + 16 + 8) with (off + 24) by lia.
       do 2 eapply sumok_job_cons. apply sumok_nil. }
  unfold ev_v1. cbn [va_off va_so va_io concat app]. rewrite !app_nil_r.
  perm.
Qed.

Lemma sum_vals L t mp ip doff vals : forall tr T, ctr L (instance_values t mp ip doff vals) tr T ->
  exists Eb Es vs, sumok L tr Eb /\ Forall2 (sumok L) T Es /\ Eb ++ concat Es ≡ₚ ev_vals t mp ip doff vals vs.
Proof.
  induction vals as [|[n v] vals IH]; intros tr T H.
  - cbn in H. destruct H as [-> ->]. exists [], [], []. split_and!; [apply sumok_nil|constructor|reflexivity].
  - cbn [instance_values] in H. apply ctr_alloc in H as (off & u2 & -> & H). cbn [ctr w_i64] in H.
    destruct H as (tv & T2 & -> & Hv & u3 & -> & io & u4 & -> & u5 & -> & H).
    apply sum_value in Hv as (_ & so & Hv).
    apply IH in H as (Eb & Es & vs & Hb & HEs & HP).
    unfold MaxDataValueSize. replace (off + 16 + 8) with (off + 24) by lia.
    eexists _, (_ :: Es), (mkVa off so io :: vs). split_and!.
    + apply sumok_alloc_cons, (sumok_job_cons _ _ CV _ 8), sumok_get_cons, (sumok_job_cons _ _ CV _ 8). exact Hb.
    + constructor; [exact Hv|exact HEs].
    + cbn [ev_vals hd tl concat va_io]. unfold ev_v1; cbn [va_off va_so va_io].
      rewrite <- HP. cbn [app]. perm.
Qed.

Lemma sum_inst_metric L v2 mp ip d dom vals tr T : ctr L (writeInstanceMetric v2 mp ip d dom vals) tr T ->
  T = [] /\ exists a, ma_ok (MPInst mp d ip dom vals) a /\ sumok L tr (ev_met v2 (MPInst mp d ip dom vals) a).
Proof.
  unfold writeInstanceMetric. intros H.
  apply ctr_wg in H as (tks & tb & Tb & tr1 & tr2 & -> & HF & Hb & Hi & Hk).
  inversion HF; subst. cbn in Hk. destruct Hk as [-> ->]. split; [reflexivity|]. rewrite app_nil_r.
  cbn [ctr] in Hb. destruct Hb as (doff & u1 & -> & tc & T1 & -> & Hd & Hb).
  apply sum_vals in Hb as (Eb & Es & vs & Hb & HEs & HP).
  apply sum_desc in Hd as (_ & a & Ha & Hso & Hlo & Hd).
  exists (mkMa doff (ma_no a) (ma_so a) (ma_lo a) vs).
  split; [split; [auto|split; [auto|exact I]]|]. cbn [ev_met ma_off ma_vs hd].
  apply sumok_alloc.
  eapply sumok_perm; [|eapply sumok_ileave; [exact Hi|]].
  2: { cbn [app]. constructor; [apply sumok_take_cons, Hb|constructor; [apply Hd|exact HEs]]. }
  cbn [concat app]. rewrite <- HP. perm.
Qed.

Lemma sum_mets L v2 ms ts : Forall2 (fun c t => ctr L c t []) (writeMetric v2 <$> ms) ts ->
  exists asg Es, Forall2 (sumok L) ts Es /\ Forall2 ma_ok ms asg /\ Es = zip_with (ev_met v2) ms asg.
Proof.
  revert ts; induction ms as [|m ms IH]; intros ts H; cbn in H.
  - inversion H; subst. exists [], []. repeat constructor.
  - inversion H as [|? t ? ts' Ht Hts]; subst.
    assert (exists a, ma_ok m a /\ sumok L t (ev_met v2 m a)) as (a & Ha & Hs).
    { destruct m; [apply sum_single in Ht|apply sum_inst_metric in Ht]; tauto. }
    destruct (IH _ Hts) as (asg & Es & HEs & HO & ->).
    eexists (a :: asg), _. split_and!; [constructor; eauto|constructor; eauto|reflexivity].
Qed.

(** Merging a last write into a job. *)
Lemma ileave_append {A} (l1 l2 : list (list A)) a b t :
  ileave (l1 ++ a :: l2) t -> ileave (l1 ++ (a ++ b) :: l2) (t ++ b).
Proof.
  intros H. remember (l1 ++ a :: l2) as ls eqn:E. revert l1 a l2 E.
  induction H as [ls H|m1 x u m2 tr H IH]; intros l1 a l2 E; subst.
  - apply Forall_app in H as [H1 H2]. inversion H2 as [|? ? -> H3]; subst. cbn.
    assert (ileave ([b] ++ (l1 ++ l2)) b) as Hi.
    { assert (Forall (fun l => l = []) (l1 ++ l2)) as Hn by (apply Forall_app; auto).
      clear - Hn. revert Hn. generalize (l1 ++ l2) as ls. intros ls. induction 1 as [|l ls -> Hn IH].
      - apply ileave_singleton.
      - apply (ileave_insert_nil [b] ls). exact IH. }
    eapply ileave_perm; [|exact Hi]. cbn. perm.
  - cbn. apply app_eq_inv in E as [(k & -> & E)|(k & -> & E)].
    + destruct k as [|y k]; cbn in *; simplify_eq.
      * rewrite app_nil_r in *. cbn. apply il_cons. apply IH. reflexivity.
      * specialize (IH l1 y (k ++ u :: m2)). rewrite <- app_assoc in IH. specialize (IH eq_refl).
        replace (l1 ++ (y ++ b) :: k ++ (x :: u) :: m2) with ((l1 ++ (y ++ b) :: k) ++ (x :: u) :: m2)
          by (rewrite <- app_assoc; reflexivity).
        apply il_cons. rewrite <- app_assoc. exact IH.
    + destruct k as [|y k]; cbn in *; simplify_eq.
      * rewrite app_nil_r in *. cbn. apply il_cons. apply IH. reflexivity.
      * rewrite <- app_assoc. cbn. apply il_cons.
        specialize (IH (m1 ++ u :: k) a l2). rewrite <- !app_assoc in IH. cbn in IH. apply IH. reflexivity.
Qed.

Lemma sumok_last L tr m t lo w ds d E :
  sumok L tr (EJob t lo w ds :: E) -> sumok L (tr ++ wlab L m lo d) (EJob t lo w (ds ++ [d]) :: E).
Proof.
  intros (H1 & H2 & H3 & H4 & H5 & H6). cbn in *.
  split_and!; try (rewrite omap_app, wlab_no by auto; rewrite app_nil_r; assumption).
  cbn. intros HF. inversion HF as [|? ? Hj HF']; subst. unfold job_in in Hj. cbn in Hj.
  apply Forall_app in Hj as [Hj1 Hj2]. inversion Hj2 as [|? ? [Ha Hb] _]; subst.
  destruct H6 as [Hn Hi]; [constructor; auto|].
  rewrite wlab_in by lia. split.
  - rewrite elem_of_app. intros [H|H]; [auto|]. apply elem_of_list_fmap in H as (? & ? & _). discriminate.
  - rewrite omap_app, omap_lbyte_stores.
    apply (ileave_append [] _ _ (stores_of lo d)) in Hi. cbn in Hi.
    unfold job_stores in *. cbn in *. rewrite map_app, concat_app. cbn. rewrite app_nil_r. exact Hi.
Qed.

(** Everything start() does. *)
Definition ev_start (c : cfg) (pl : plan) (ad : list da) (am : list ma) : list ev :=
  EJob None 16 8 [le_enc 8 0; le_enc 8 (k_gen c)] :: ev_header c ++ ev_tocs HeaderLength (toc_entries (k_reg c))
  ++ concat (zip_with (ev_dom (k_reg c)) (pl_doms pl) ad) ++ concat (zip_with (ev_met (r_version2 (k_reg c))) (pl_mets pl) am).

Lemma sum_start L c pl tr T : ctr L (start_prog c pl) tr T ->
  T = [] /\ exists ad am trh trt trd trm tr1,
    Forall2 da_ok (pl_doms pl) ad /\ Forall2 ma_ok (pl_mets pl) am /\
    sumok L trh (EJob None 16 8 [le_enc 8 0] :: ev_header c) /\
    sumok L trt (ev_tocs HeaderLength (toc_entries (k_reg c))) /\
    sumok L trd (concat (zip_with (ev_dom (k_reg c)) (pl_doms pl) ad)) /\
    sumok L trm (concat (zip_with (ev_met (r_version2 (k_reg c))) (pl_mets pl) am)) /\
    ileave [trh; trt; trd ++ trm] tr1 /\
    tr = tr1 ++ wlab L true 16 (le_enc 8 (k_gen c)) /\
    ctr L (writeHeaderBlock c) trh [] /\
    sumok L tr (ev_start c pl ad am).
Proof.
  unfold start_prog. intros H.
  apply ctr_wg in H as (tks & tb & Tb & tr1 & tr2 & -> & HF & Hb & Hi & Hk).
  inversion HF; subst. cbn [app] in Hi.
  cbn [ctr] in Hb. destruct Hb as (trh & T1 & -> & Hh & trt & T2 & -> & Ht & tri & T3 & -> & Hd & -> & ->).
  unfold writeInstanceDomains in Hd.
  apply ctr_wg_gos in Hd as (td & trd & trm & -> & HFd & Hid & Hm).
  unfold writeMetrics in Hm.
  apply ctr_wg_gos in Hm as (tm & trm1 & trm2 & -> & HFm & Him & Hm). cbn in Hm. destruct Hm as [-> _].
  rewrite app_nil_r in Hi.
  apply sum_doms in HFd as (ad & Ed & HEd & Had & ->).
  apply sum_mets in HFm as (am & Em & HEm & Ham & ->).
  pose proof Hh as Hh0. apply sum_header in Hh as [_ Hh]. apply sum_toc in Ht as [_ Ht].
  cbn [ctr w_i64] in Hk. destruct Hk as (t9 & -> & -> & ->). rewrite app_nil_r.
  split; [reflexivity|].
  exists ad, am, trh, trt, trd, trm1, tr1. unfold g2off.
  pose proof (sumok_ileave _ _ _ _ Hid HEd) as Hsd. pose proof (sumok_ileave _ _ _ _ Him HEm) as Hsm.
  apply (ileave_remove_nil []) in Hi. cbn [app] in Hi.
  repeat (split; [assumption || reflexivity|]).
  unfold ev_start. apply (sumok_last _ _ _ _ _ _ [_]).
  eapply sumok_perm; [|eapply sumok_ileave; [exact Hi|constructor; [exact Hh|constructor; [exact Ht|constructor; [apply sumok_app; eassumption|constructor]]]]].
  cbn [concat app]. perm.
Qed.
