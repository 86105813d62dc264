(** Concurrent registration with arbitrary names: what holds in every interleaving. *)
From Verif Require Import Base BaseFacts GoVal MetricType Indom Metrics Registry Prog RegInv RegFacts Client World WorldInv View Locks LocksLive RegConc RegConcFacts RegConcLive.
From stdpp Require Import relations.
Local Open Scope Z_scope.

(** ** What a goroutine sees and does; the string counter, which two locks guard, is left out. *)
Inductive obs :=
| OMapped (b : bool) | OSawM (n : gostring) (b : bool) | OSawD (n : gostring) (b : bool)
| OMet (n : gostring) (mp : nat) | ODom (n : gostring) (ip : nat) | OCnt (c : rcnt) (z : Z) | OV2 (b : bool) | OSetV2.
Definition ocnt (c : rcnt) (z : Z) : list obs := match c with NStr => [] | _ => [OCnt c z] end.

(** [p] can do [t] and return [o]. *)
Inductive ptr : rprog -> list obs -> outcome -> Prop :=
| pt_ret o : ptr (GRet o) [] o
| pt_lock x k t o : ptr k t o -> ptr (GLock x k) t o
| pt_unlock x k t o : ptr k t o -> ptr (GUnlock x k) t o
| pt_rlock x k t o : ptr k t o -> ptr (GRLock x k) t o
| pt_runlock x k t o : ptr k t o -> ptr (GRUnlock x k) t o
| pt_mapped k b t o : ptr (k b) t o -> ptr (GMapped k) (OMapped b :: t) o
| pt_hasm n k b t o : ptr (k b) t o -> ptr (GHasM n k) (OSawM n b :: t) o
| pt_hasd n k b t o : ptr (k b) t o -> ptr (GHasD n k) (OSawD n b :: t) o
| pt_putm n mp k t o : ptr k t o -> ptr (GPutM n mp k) (OMet n mp :: t) o
| pt_putd n ip k t o : ptr k t o -> ptr (GPutD n ip k) (ODom n ip :: t) o
| pt_add c z k t o : ptr k t o -> ptr (GAdd c z k) (ocnt c z ++ t) o
| pt_set c v k t o : ptr k t o -> ptr (GSet c v k) t o
| pt_v2 k b t o : ptr (k b) t o -> ptr (GV2 k) (OV2 b :: t) o
| pt_setv2 k t o : ptr k t o -> ptr (GSetV2 k) (OSetV2 :: t) o.

Lemma ptr_total p : exists t o, ptr p t o.
Proof.
  induction p as [o|x k IH|x k IH|x k IH|x k IH|k IH|n k IH|n k IH|n mp k IH|n ip k IH|c z k IH|c v k IH|k IH|k IH];
    try (destruct IH as (t & o & H)); try (destruct (IH true) as (t & o & H)); eauto using ptr.
Qed.

(** All but the string counter. *)
Record agree (r r' : registry) : Prop := {
  ag_d : r_indoms r' = r_indoms r; ag_m : r_metrics r' = r_metrics r; ag_i : r_instanceCount r' = r_instanceCount r;
  ag_v : r_valueCount r' = r_valueCount r; ag_p : r_mapped r' = r_mapped r; ag_2 : r_version2 r' = r_version2 r }.
Lemma agree_refl r : agree r r.
Proof. by split. Qed.

Inductive ostep (r : registry) : list obs -> registry -> Prop :=
| os_none r' : agree r r' -> ostep r [] r'
| os_mapped : ostep r [OMapped (r_mapped r)] r
| os_sawm n : ostep r [OSawM n (HasMetric r n)] r
| os_sawd n : ostep r [OSawD n (HasInstanceDomain r n)] r
| os_putm n mp : ostep r [OMet n mp] (put_met n mp r)
| os_putd n ip : ostep r [ODom n ip] (put_dom n ip r)
| os_cnt c z : c <> NStr -> ostep r [OCnt c z] (set_cnt c (cnt c r + z) r)
| os_v2 : ostep r [OV2 (r_version2 r)] r
| os_setv2 : ostep r [OSetV2] (set_v2 r).

(** In the middle of an addition the counter still has the value read. *)
Definition pend (r : registry) (q p : rprog) : Prop :=
  q = p \/ exists c z k v, q = GAdd c z k /\ p = GSet c v k /\ (c <> NStr -> v = cnt c r + z).

Fixpoint no_set (p : rprog) : Prop :=
  match p with
  | GRet _ => True
  | GLock _ k | GRLock _ k | GUnlock _ k | GRUnlock _ k => no_set k
  | GMapped k | GHasM _ k | GHasD _ k | GV2 k => forall b, no_set (k b)
  | GPutM _ _ k | GPutD _ _ k | GSetV2 k => no_set k
  | GAdd c _ k => (c <> NStr -> holds k = HW (match c with NInst => KDom | _ => KMet end)) /\ no_set k
  | GSet _ _ _ => False
  end.

Lemma step_trace i r f q p p' r' f' : pend r q p -> no_set q -> gnext i p r f = Some (p', r', f') ->
  exists q' es, pend r' q' p' /\ no_set q' /\ ostep r es r' /\ (forall t o, ptr q' t o -> ptr q (es ++ t) o) /\
    (forall c, c <> NStr -> cnt c r' <> cnt c r -> holds p = HW (match c with NInst => KDom | _ => KMet end)).
Proof.
  intros [->|(c & z & k & v & -> & -> & E)] N H.
  - destruct p as [o|x k|x k|x k|x k|k|n k|n k|n mp k|n ip k|c z k|c v k|k|k]; cbn [gnext no_set] in *.
    + done.
    + destruct (f x) as [|X]; [done|]. destruct (decide (X = ∅)); [|done]. injection H as <- <- <-. exists k, []. split_and!; [by left|done|apply os_none, agree_refl|eauto using ptr|done].
    + injection H as <- <- <-. exists k, []. split_and!; [by left|done|apply os_none, agree_refl|eauto using ptr|done].
    + destruct (f x) as [|X]; [done|]. injection H as <- <- <-. exists k, []. split_and!; [by left|done|apply os_none, agree_refl|eauto using ptr|done].
    + destruct (f x) as [|X]; [done|]. injection H as <- <- <-. exists k, []. split_and!; [by left|done|apply os_none, agree_refl|eauto using ptr|done].
    + injection H as <- <- <-. eexists _, _. split_and!; [by left|apply N|apply os_mapped|intros; by constructor|done].
    + injection H as <- <- <-. eexists _, _. split_and!; [by left|apply N|apply os_sawm|intros; by constructor|done].
    + injection H as <- <- <-. eexists _, _. split_and!; [by left|apply N|apply os_sawd|intros; by constructor|done].
    + injection H as <- <- <-. eexists _, _. split_and!; [by left|apply N|apply os_putm|intros; by constructor|intros c _; by rewrite cnt_put_met].
    + injection H as <- <- <-. eexists _, _. split_and!; [by left|apply N|apply os_putd|intros; by constructor|intros c _; by rewrite cnt_put_dom].
    + injection H as <- <- <-. exists (GAdd c z k), []. split_and!; [right; exists c, z, k, (cnt c r + z); auto|exact N|apply os_none, agree_refl|done|done].
    + done.
    + injection H as <- <- <-. eexists _, _. split_and!; [by left|apply N|apply os_v2|intros; by constructor|done].
    + injection H as <- <- <-. eexists _, _. split_and!; [by left|apply N|apply os_setv2|intros; by constructor|intros c _; by rewrite cnt_v2].
  - cbn in H. injection H as <- <- <-. destruct N as [N1 N2]. exists k, (ocnt c z). split; [by left|]. split; [exact N2|]. split; [|split].
    + destruct c; cbn [ocnt]; [rewrite E by done; by constructor|rewrite E by done; by constructor|]. apply os_none. by split.
    + intros. by constructor.
    + intros c' Hc Hne. rewrite cnt_set in Hne. destruct (decide (c = c')) as [<-|]; [|done]. cbn [holds]. auto.
Qed.

(** ** The registry against all that has been seen and done so far *)
Definition osum (c : rcnt) (G : list obs) : Z := sumZ (map (fun e => match e with OCnt c' z => if decide (c' = c) then z else 0 | _ => 0 end) G).
Record glob (r0 : registry) (G : list obs) (r : registry) : Prop := {
  gl_p : r_mapped r = r_mapped r0;
  gl_p1 : forall b, OMapped b ∈ G -> b = r_mapped r0;
  gl_m0 : forall n x, r_metrics r0 !! n = Some x -> r_metrics r !! n = Some x;
  gl_m1 : forall n x, r_metrics r !! n = Some x -> r_metrics r0 !! n = Some x \/ OMet n x ∈ G;
  gl_m2 : forall n x, OMet n x ∈ G -> is_Some (r_metrics r !! n);
  gl_m3 : forall n, OSawM n false ∈ G -> r_metrics r0 !! n = None;
  gl_m4 : forall n, OSawM n true ∈ G -> is_Some (r_metrics r !! n);
  gl_d0 : forall n x, r_indoms r0 !! n = Some x -> r_indoms r !! n = Some x;
  gl_d1 : forall n x, r_indoms r !! n = Some x -> r_indoms r0 !! n = Some x \/ ODom n x ∈ G;
  gl_d2 : forall n x, ODom n x ∈ G -> is_Some (r_indoms r !! n);
  gl_d3 : forall n, OSawD n false ∈ G -> r_indoms r0 !! n = None;
  gl_d4 : forall n, OSawD n true ∈ G -> is_Some (r_indoms r !! n);
  gl_v : r_version2 r = true <-> r_version2 r0 = true \/ OSetV2 ∈ G;
  gl_v2 : OV2 true ∈ G -> r_version2 r = true;
  gl_cnt : forall c, c <> NStr -> cnt c r = cnt c r0 + osum c G }.

Lemma glob_start r0 : glob r0 [] r0.
Proof. split; try done; try (intros; by apply elem_of_nil in H); [auto|auto| |intros; cbn; lia]. split; [auto|]. intros [?|H]; [done|by apply elem_of_nil in H]. Qed.
Lemma hasm_true r n : HasMetric r n = true <-> is_Some (r_metrics r !! n).
Proof. unfold HasMetric. by rewrite bool_decide_eq_true. Qed.
Lemma hasd_true r n : HasInstanceDomain r n = true <-> is_Some (r_indoms r !! n).
Proof. unfold HasInstanceDomain. by rewrite bool_decide_eq_true. Qed.
Lemma osum_cons c e G : osum c (e :: G) = match e with OCnt c' z => if decide (c' = c) then z else 0 | _ => 0 end + osum c G.
Proof. reflexivity. Qed.
Lemma osum_perm c a b : a ≡ₚ b -> osum c a = osum c b.
Proof. intros H. unfold osum. induction H; cbn; lia. Qed.
Lemma osum_app c a b : osum c (a ++ b) = osum c a + osum c b.
Proof. unfold osum. rewrite map_app. apply sumZ_app. Qed.

Lemma glob_perm r0 G G' r : G ≡ₚ G' -> glob r0 G r -> glob r0 G' r.
Proof.
  intros P [P0 P1 M0 M1 M2 M3 M4 D0 D1 D2 D3 D4 V V2 C]. assert (forall e, e ∈ G' <-> e ∈ G) as E by (intros e; by rewrite P).
  split; intros *; rewrite ?E; eauto 2. intros N. rewrite (C _ N). by rewrite (osum_perm _ _ _ P).
Qed.
Lemma glob_step r0 G r es r' : glob r0 G r -> ostep r es r' ->
  (forall n mp, es = [OMet n mp] -> OSawM n false ∈ G) -> (forall n ip, es = [ODom n ip] -> OSawD n false ∈ G) -> glob r0 (es ++ G) r'.
Proof.
  intros [P0 P1 M0 M1 M2 M3 M4 D0 D1 D2 D3 D4 V V2 C] S HM HD.
  Local Ltac old V C M1 D1 := solve
    [ eauto 3 | intros [?|?]; [discriminate|eauto 3]
    | let H := fresh in intros H; apply M1 in H as [?|?]; auto | let H := fresh in intros H; apply D1 in H as [?|?]; auto
    | rewrite V; split; [intros [?|?]; auto|intros [?|[?|?]]; [auto|discriminate|auto]]
    | let H := fresh in intros H; rewrite (C _ H); lia ].
  destruct S as [r' A| |n|n|n mp|n ip|c z Hc| |]; cbn [app].
  - destruct A as [A1 A2 A3 A4 A5 A6]. split; rewrite ?A1, ?A2, ?A5, ?A6; auto. intros [] ?; try done; cbn [cnt]; rewrite ?A3, ?A4; [apply (C NInst)|apply (C NVal)]; done.
  - split; intros *; rewrite ?elem_of_cons, ?osum_cons; try old V C M1 D1. intros [H|H]; [injection H as ->|]; auto.
  - split; intros *; rewrite ?elem_of_cons, ?osum_cons; try old V C M1 D1.
    + intros [H|H]; [|auto]. injection H as -> H. destruct (r_metrics r0 !! n) eqn:E0; [|done]. apply M0 in E0. assert (HasMetric r n = true) by (apply hasm_true; eauto). congruence.
    + intros [H|H]; [|auto]. injection H as -> H. by apply hasm_true.
  - split; intros *; rewrite ?elem_of_cons, ?osum_cons; try old V C M1 D1.
    + intros [H|H]; [|auto]. injection H as -> H. destruct (r_indoms r0 !! n) eqn:E0; [|done]. apply D0 in E0. assert (HasInstanceDomain r n = true) by (apply hasd_true; eauto). congruence.
    + intros [H|H]; [|auto]. injection H as -> H. by apply hasd_true.
  - pose proof (M3 _ (HM _ _ eq_refl)) as M5. assert (forall a, is_Some (r_metrics r !! a) -> is_Some (<[n := mp]> (r_metrics r) !! a)) as K by (intros a Ha; apply lookup_insert_is_Some'; auto).
    split; cbn [put_met r_mapped r_metrics r_indoms r_version2]; intros *; rewrite ?cnt_put_met, ?elem_of_cons, ?osum_cons; try old V C M1 D1.
    + intros H. rewrite lookup_insert_ne; [auto|congruence].
    + intros H. apply lookup_insert_Some in H as [[<- <-]|[_ H]]; [auto|]. destruct (M1 _ _ H); auto.
    + intros [H|H]; [injection H as -> ->; rewrite lookup_insert; eauto|eauto].
  - pose proof (D3 _ (HD _ _ eq_refl)) as D5. assert (forall a, is_Some (r_indoms r !! a) -> is_Some (<[n := ip]> (r_indoms r) !! a)) as K by (intros a Ha; apply lookup_insert_is_Some'; auto).
    split; cbn [put_dom r_mapped r_metrics r_indoms r_version2]; intros *; rewrite ?cnt_put_dom, ?elem_of_cons, ?osum_cons; try old V C M1 D1.
    + intros H. rewrite lookup_insert_ne; [auto|congruence].
    + intros H. apply lookup_insert_Some in H as [[<- <-]|[_ H]]; [auto|]. destruct (D1 _ _ H); auto.
    + intros [H|H]; [injection H as -> ->; rewrite lookup_insert; eauto|eauto].
  - assert (r_mapped (set_cnt c (cnt c r + z) r) = r_mapped r /\ r_metrics (set_cnt c (cnt c r + z) r) = r_metrics r /\ r_indoms (set_cnt c (cnt c r + z) r) = r_indoms r /\
      r_version2 (set_cnt c (cnt c r + z) r) = r_version2 r) as (K1 & K2 & K3 & K4) by (by destruct c).
    split; rewrite ?K1, ?K2, ?K3, ?K4; intros *; rewrite ?cnt_set, ?elem_of_cons, ?osum_cons; try old V C M1 D1.
    intros Hc'. destruct (decide _) as [<-|]; rewrite ?C by done; lia.
  - split; intros *; rewrite ?elem_of_cons, ?osum_cons; try old V C M1 D1. intros [H|H]; [injection H as H|]; auto.
  - split; cbn [set_v2 r_mapped r_metrics r_indoms r_version2]; intros *; rewrite ?cnt_v2, ?elem_of_cons, ?osum_cons; try old V C M1 D1. split; [auto|done].
Qed.

(** ** Traces of the calls *)
Definition v2_obs (b long : bool) : list obs := OV2 b :: (if negb b && long then [OSetV2] else []).
Lemma ptr_text s k t o : ptr (g_text s k) t o -> ptr k t o.
Proof. unfold g_text. destruct (nonempty s); [|done]. intros H. by inversion H; subst. Qed.
Lemma ptr_v2 long k t o : ptr (g_v2 long k) t o -> exists b t', t = v2_obs b long ++ t' /\ ptr k t' o.
Proof.
  unfold g_v2, v2_obs. intros H. inversion H as [| | | | | | | | | | | |k' b t' o' H'|]; subst. exists b. destruct (negb b && long).
  - inversion H'; subst. eexists. split; [reflexivity|done].
  - eexists. split; [reflexivity|done].
Qed.
Definition raw_obs (mp : nat) (m : metric) (dom : option indom) (b : bool) : list obs :=
  OMet (md_name (m_desc m)) mp :: v2_obs b (MaxV1NameLength <? zlen (md_name (m_desc m))) ++ [OCnt NVal (metric_values dom)].
Lemma ptr_raw mp m dom t o : ptr (g_add_raw mp m dom) t o -> o = ROk /\ exists b, t = raw_obs mp m dom b.
Proof.
  unfold g_add_raw, raw_obs. intros H. inversion H as [|x k t1 o1 H1| | | | | | | | | | | |]; subst. inversion H1 as [| | | | | | | |n mp' k t2 o2 H2| | | | |]; subst.
  apply ptr_v2 in H2 as (b & t3 & -> & H3). inversion H3 as [| | | | | | | | | |c z k t4 o4 H4| | |]; subst. cbn [ocnt app] in *.
  assert (ptr (GUnlock KMet (GRet ROk)) t4 o) as H5.
  { destruct (md_type (m_desc m) =? StringType); [inversion H4; subst; cbn [ocnt app] in *|]; eauto using ptr_text. }
  inversion H5 as [| |x k t6 o6 H6| | | | | | | | | | |]; subst. inversion H6; subst. split; [done|]. exists b. reflexivity.
Qed.
Definition dom_obs (ip : nat) (d : indom) (b : bool) : list obs :=
  ODom (id_name d) ip :: OCnt NInst (instance_count d) :: v2_obs b (has_long_instance d).
Lemma ptr_add_indom ip d kok kerr t o : ptr (g_add_indom ip d kok kerr) t o ->
  (exists t', t = OSawD (id_name d) true :: t' /\ ptr kerr t' o) \/ (exists t', t = OSawD (id_name d) false :: OMapped true :: t' /\ ptr kerr t' o) \/
  exists b t', t = OSawD (id_name d) false :: OMapped false :: dom_obs ip d b ++ t' /\ ptr kok t' o.
Proof.
  unfold g_add_indom, g_has_indom. intros H. inversion H as [| | |x k t1 o1 H1| | | | | | | | | |]; subst. inversion H1 as [| | | | | | |n k b t2 o2 H2| | | | | |]; subst.
  inversion H2 as [| | | |x k t3 o3 H3| | | | | | | | |]; subst. destruct b; [left; eauto|right].
  inversion H3 as [|x k t4 o4 H4| | | | | | | | | | | |]; subst. inversion H4 as [| | | | |k b t5 o5 H5| | | | | | | |]; subst.
  destruct b; [left; inversion H5; subst; eauto|right].
  inversion H5 as [| | | | | | | | |n ip' k t6 o6 H6| | | |]; subst. inversion H6 as [| | | | | | | | | |c z k t7 o7 H7| | |]; subst. cbn [ocnt app] in *.
  apply ptr_v2 in H7 as (b & t8 & -> & H8). apply ptr_text, ptr_text in H8. inversion H8; subst. exists b, t8. split; [reflexivity|done].
Qed.
(** All traces of the two calls. *)
Inductive mtr (mp : nat) (m : metric) (dom : option (nat * indom)) : list obs -> outcome -> Prop :=
| mt_mapped : mtr mp m dom [OMapped true] RErr
| mt_taken : mtr mp m dom [OMapped false; OSawM (md_name (m_desc m)) true] RErr
| mt_plain b : dom = None -> mtr mp m dom ([OMapped false; OSawM (md_name (m_desc m)) false] ++ raw_obs mp m None b) ROk
| mt_known ip d b : dom = Some (ip, d) -> mtr mp m dom ([OMapped false; OSawM (md_name (m_desc m)) false; OSawD (id_name d) true] ++ raw_obs mp m (Some d) b) ROk
| mt_raced ip d : dom = Some (ip, d) -> mtr mp m dom [OMapped false; OSawM (md_name (m_desc m)) false; OSawD (id_name d) false; OSawD (id_name d) true] RErr
| mt_late ip d : dom = Some (ip, d) -> mtr mp m dom [OMapped false; OSawM (md_name (m_desc m)) false; OSawD (id_name d) false; OSawD (id_name d) false; OMapped true] RErr
| mt_new ip d b b' : dom = Some (ip, d) ->
    mtr mp m dom ([OMapped false; OSawM (md_name (m_desc m)) false; OSawD (id_name d) false; OSawD (id_name d) false; OMapped false] ++ dom_obs ip d b ++ raw_obs mp m (Some d) b') ROk.
Inductive dtr (ip : nat) (d : indom) : list obs -> outcome -> Prop :=
| dt_taken : dtr ip d [OSawD (id_name d) true] RErr
| dt_mapped : dtr ip d [OSawD (id_name d) false; OMapped true] RErr
| dt_new b : dtr ip d ([OSawD (id_name d) false; OMapped false] ++ dom_obs ip d b) ROk.

Definition dom_of (hp : heap) (m : metric) : option (nat * indom) := ip ← m_indom m; d ← h_indoms hp !! ip; Some (ip, d).
Lemma ptr_ret o0 t o : ptr (GRet o0) t o -> t = [] /\ o = o0.
Proof. intros H. by inversion H. Qed.
Lemma ptr_metric hp mp m t o : h_metrics hp !! mp = Some m -> (forall ip, m_indom m = Some ip -> is_Some (h_indoms hp !! ip)) ->
  ptr (g_body hp (RegM mp)) t o -> mtr mp m (dom_of hp m) t o.
Proof.
  intros Hm Hd H. cbn [g_body] in H. rewrite Hm in H. unfold g_add_metric, g_has_metric in H. inversion H as [| | | | |k b t1 o1 H1| | | | | | | |]; subst. clear H.
  destruct b; [apply ptr_ret in H1 as [-> ->]; constructor|].
  inversion H1 as [| | |x k t2 o2 H2| | | | | | | | | |]; subst. inversion H2 as [| | | | | |n k b t3 o3 H3| | | | | | |]; subst. inversion H3 as [| | | |x k t4 o4 H4| | | | | | | | |]; subst. clear H1 H2 H3.
  destruct b; [apply ptr_ret in H4 as [-> ->]; constructor|]. unfold dom_of. destruct (m_indom m) as [ip|] eqn:Ei; cbn [mbind option_bind].
  - destruct (Hd ip eq_refl) as [d Ed]. rewrite Ed in H4 |- *. cbn [mbind option_bind]. unfold g_has_indom in H4. inversion H4 as [| | |x k t5 o5 H5| | | | | | | | | |]; subst. inversion H5 as [| | | | | | |n k b t6 o6 H6| | | | | |]; subst.
    inversion H6 as [| | | |x k t7 o7 H7| | | | | | | | |]; subst. clear H4 H5 H6. destruct b.
    + apply ptr_raw in H7 as (-> & b & ->). by apply (mt_known _ _ _ ip d b).
    + apply ptr_add_indom in H7 as [(t' & -> & H8)|[(t' & -> & H8)|(b & t' & -> & H8)]].
      * apply ptr_ret in H8 as [-> ->]. by apply (mt_raced _ _ _ ip d).
      * apply ptr_ret in H8 as [-> ->]. by apply (mt_late _ _ _ ip d).
      * apply ptr_raw in H8 as (-> & b' & ->). by apply (mt_new _ _ _ ip d b b').
  - apply ptr_raw in H4 as (-> & b & ->). by apply (mt_plain _ _ _ b).
Qed.
Lemma ptr_domain hp ip d t o : h_indoms hp !! ip = Some d -> ptr (g_body hp (RegD ip)) t o -> dtr ip d t o.
Proof.
  intros Hd H. cbn [g_body] in H. rewrite Hd in H. apply ptr_add_indom in H as [(t' & -> & H8)|[(t' & -> & H8)|(b & t' & -> & H8)]]; apply ptr_ret in H8 as [-> ->]; try constructor.
  rewrite app_nil_r. apply (dt_new ip d b).
Qed.

(** A name is put only after it was seen to be free. *)
Ltac chop := repeat match goal with
  | H : [] = ?h ++ _ :: _ |- _ => destruct h; discriminate H
  | H : _ :: _ = ?h ++ _ :: _ |- _ => destruct h as [|? h]; cbn [app] in H; injection H as ? H; subst; try discriminate
  end.
Lemma mtr_before mp m dom h e t o : mtr mp m dom (h ++ e :: t) o ->
  (forall n x, e = OMet n x -> OSawM n false ∈ h) /\ (forall n x, e = ODom n x -> OSawD n false ∈ h).
Proof.
  intros H. remember (h ++ e :: t) as l eqn:El.
  destruct H as [| |b _|ip d b _|ip d _|ip d _|ip d b b' _]; unfold raw_obs, dom_obs, v2_obs in El; cbn [app] in El;
    try destruct (negb b && _); try destruct (negb b' && _); cbn [app] in El; split; intros ? ? ->; chop; set_solver.
Qed.
Lemma dtr_before ip d h e t o : dtr ip d (h ++ e :: t) o ->
  (forall n x, e = OMet n x -> OSawM n false ∈ h) /\ (forall n x, e = ODom n x -> OSawD n false ∈ h).
Proof.
  intros H. remember (h ++ e :: t) as l eqn:El.
  destruct H as [| |b]; unfold dom_obs, v2_obs in El; cbn [app] in El; try destruct (negb b && _); cbn [app] in El; split; intros ? ? ->; chop; set_solver.
Qed.

Definition full_object (hp : heap) (c : rcall) : Prop :=
  match c with
  | RegM mp => exists m, h_metrics hp !! mp = Some m /\ forall ip, m_indom m = Some ip -> is_Some (h_indoms hp !! ip)
  | RegD ip => exists d, h_indoms hp !! ip = Some d
  end.
Lemma body_before hp c h e t o : full_object hp c -> ptr (g_body hp c) (h ++ e :: t) o ->
  (forall n x, e = OMet n x -> OSawM n false ∈ h) /\ (forall n x, e = ODom n x -> OSawD n false ∈ h).
Proof.
  destruct c as [mp|ip].
  - intros (m & Hm & Hd) H. eapply mtr_before, ptr_metric; eauto.
  - intros (d & Hd) H. eapply dtr_before, ptr_domain; eauto.
Qed.

Lemma no_set_text s k : no_set k -> no_set (g_text s k).
Proof. unfold g_text. by destruct (nonempty s). Qed.
Lemma no_set_v2 b k : no_set k -> no_set (g_v2 b k).
Proof. unfold g_v2. intros H b'. by destruct (negb b' && b). Qed.
Lemma no_set_raw mp m dom : no_set (g_add_raw mp m dom).
Proof.
  unfold g_add_raw. cbn [no_set]. apply no_set_v2. cbn [no_set]. split.
  - intros _. by destruct (_ =? _); cbn [holds]; rewrite !holds_text.
  - destruct (_ =? _); cbn [no_set]; [split; [done|]|]; by apply no_set_text, no_set_text.
Qed.
Lemma no_set_add_indom ip d kok kerr : no_set kok -> no_set kerr -> no_set (g_add_indom ip d kok kerr).
Proof.
  intros H1 H2. unfold g_add_indom, g_has_indom. cbn [no_set]. intros []; [done|]. cbn [no_set]. intros []; [done|]. cbn [no_set]. split.
  - intros _. rewrite holds_v2, !holds_text. done.
  - by apply no_set_v2, no_set_text, no_set_text.
Qed.
Lemma no_set_body hp c : no_set (g_body hp c).
Proof.
  destruct c as [mp|ip]; cbn [g_body].
  - destruct (h_metrics hp !! mp) as [m|]; [|done]. unfold g_add_metric, g_has_metric. cbn [no_set]. intros []; [done|]. cbn [no_set]. intros []; [done|].
    destruct (m_indom m) as [ip|]; [|apply no_set_raw]. destruct (h_indoms hp !! ip) as [d|]; [|done]. unfold g_has_indom. cbn [no_set]. intros []; [apply no_set_raw|].
    apply no_set_add_indom; [apply no_set_raw|done].
  - destruct (h_indoms hp !! ip) as [d|]; [|done]. by apply no_set_add_indom.
Qed.

(** ** All goroutines *)
Section any.
  Context (hp : heap) (r0 : registry) (css : list (list rcall)).
  Context (Hobj : forall l c, l ∈ css -> c ∈ l -> full_object hp c).
  (** What a goroutine has seen and done: in the calls that have returned, and in the current one. *)
  Local Notation glog := (list (list obs) * list obs)%type.
  Definition flat (x : glog) : list obs := concat x.1 ++ x.2.
  Definition tinv (r : registry) (i : nat) (th : thr rcall rprog outcome) (x : glog) : Prop :=
    css !! i = Some ((t_done th).*1 ++ cur_call th ++ t_todo th) /\
    Forall2 (fun y t => ptr (g_body hp y.1) t y.2) (t_done th) x.1 /\
    match t_cur th with
    | None => x.2 = []
    | Some (c, p) => exists q, pend r q p /\ no_set q /\ forall t o, ptr q t o -> ptr (g_body hp c) (x.2 ++ t) o
    end.
  Record ainv (m : rmach) (G : list obs) (L : list glog) : Prop := {
    ai_len : length (rm_thr m) = length css;
    ai_len' : length L = length css;
    ai_thr : forall i th x, rm_thr m !! i = Some th -> L !! i = Some x -> tinv (rm_reg m) i th x;
    ai_G : G ≡ₚ concat (flat <$> L);
    ai_glob : glob r0 G (rm_reg m);
    ai_lock : locked_by m }.

  Lemma concat_upd {A B : Type} (f : A -> list B) (L : list A) i x x' es : L !! i = Some x -> f x' ≡ₚ es ++ f x -> concat (f <$> <[i := x']> L) ≡ₚ es ++ concat (f <$> L).
  Proof.
    revert i. induction L as [|y L IH]; intros [|i]; cbn; try done.
    - intros [= ->] ->. by rewrite app_assoc.
    - intros H K. rewrite (IH _ H K). rewrite !app_assoc. by rewrite (Permutation_app_comm (f y)).
  Qed.
  Lemma ainv_start : ainv (rm_start r0 css) [] (replicate (length css) ([], [])).
  Proof.
    split; cbn [rm_start rm_thr rm_reg].
    - by rewrite fmap_length.
    - by rewrite replicate_length.
    - intros i th x Hi Hx. apply lookup_replicate in Hx as [-> _]. rewrite list_lookup_fmap in Hi. destruct (css !! i) as [l|] eqn:E; [|done]. injection Hi as <-. split; [exact E|]. split; [constructor|done].
    - clear. induction css as [|l ls IH]; cbn; done.
    - apply glob_start.
    - apply locked_by_start.
  Qed.
  Lemma ai_obj m G L i d c p l : ainv m G L -> rm_thr m !! i = Some (mkThr d (Some (c, p)) l) -> full_object hp c.
  Proof.
    intros A H. destruct (lookup_lt_is_Some_2 L i) as [x Hx]; [rewrite (ai_len' _ _ _ A), <- (ai_len _ _ _ A); by apply lookup_lt_Some in H|].
    destruct (ai_thr _ _ _ A _ _ _ H Hx) as (E & _). eapply Hobj; [by eapply elem_of_list_lookup_2|]. cbn. set_solver.
  Qed.
  Lemma ainv_step m G L m' : ainv m G L -> rstep hp m m' -> exists G' L', ainv m' G' L'.
  Proof.
    intros A S. pose proof (locked_by_step _ _ _ S (ai_lock _ _ _ A)) as LB. pose proof S as S0.
    destruct S as [r f ts i d c l Hi|r f ts i d c p l p' r' f' Hi Hs|r f ts i d c o l Hi]; pose proof A as [A1 A2 A3 A4 A5 A6]; cbn [rm_thr rm_reg] in *;
      pose proof (lookup_lt_Some _ _ _ Hi) as Lt; destruct (lookup_lt_is_Some_2 L i) as [[lg h] Hx]; try lia; destruct (A3 _ _ _ Hi Hx) as (T1 & T2 & T3); cbn [t_done t_cur t_todo cur_call fst snd] in *.
    - subst h. exists G, L. split; cbn [rm_thr rm_reg]; try done; [by rewrite insert_length|]. intros j th x Hj Hxj. destruct (decide (i = j)) as [<-|N]; [|rewrite list_lookup_insert_ne in Hj by done; eauto].
      rewrite list_lookup_insert in Hj by done. injection Hj as <-. assert (x = (lg, [])) as -> by congruence. split; [exact T1|]. split; [exact T2|]. cbn. exists (g_body hp c). split; [by left|]. split; [apply no_set_body|done].
    - destruct T3 as (q & Q1 & Q2 & Q3). destruct (step_trace _ _ _ _ _ _ _ _ Q1 Q2 Hs) as (q' & es & B1 & B2 & B3 & B4 & B5).
      assert (flat (lg, h ++ es) ≡ₚ es ++ flat (lg, h)) as PE by (unfold flat; cbn; rewrite app_assoc; apply Permutation_app_comm).
      exists (es ++ G), (<[i := (lg, h ++ es)]> L). split; cbn [rm_thr rm_reg].
      + by rewrite insert_length.
      + by rewrite insert_length.
      + intros j th x Hj Hxj. destruct (decide (i = j)) as [<-|N].
        * rewrite list_lookup_insert in Hj by lia. rewrite list_lookup_insert in Hxj by lia. injection Hj as <-. injection Hxj as <-. split; [exact T1|]. split; [exact T2|]. cbn. exists q'. split; [done|]. split; [done|]. intros t o Ht. rewrite <- app_assoc. auto.
        * rewrite list_lookup_insert_ne in Hj by done. rewrite list_lookup_insert_ne in Hxj by done. destruct (A3 _ _ _ Hj Hxj) as (U1 & U2 & U3). split; [exact U1|]. split; [exact U2|]. destruct (t_cur th) as [[cj pj]|] eqn:Ec; [|done].
          destruct U3 as (qj & V1 & V2 & V3). exists qj. split; [|done]. destruct V1 as [->|(cc & z & k & v & -> & -> & V1)]; [by left|]. right. exists cc, z, k, v. split; [done|]. split; [done|]. intros Hc.
          destruct (decide (cnt cc r' = cnt cc r)) as [->|Ne]; [auto|]. exfalso. specialize (B5 cc Hc Ne). destruct V2 as [V2 _]. specialize (V2 Hc).
          assert (held ts i = HW (match cc with NInst => KDom | _ => KMet end)) as W1 by (rewrite (held_at _ _ _ _ _ _ Hi); exact B5).
          assert (held ts j = HW (match cc with NInst => KDom | _ => KMet end)) as W2 by (unfold held; rewrite Hj; destruct th as [? ? ?]; cbn in Ec; subst; exact V2).
          apply (lb_w _ A6) in W1. apply (lb_w _ A6) in W2. cbn in W1, W2. congruence.
      + rewrite (concat_upd flat L i (lg, h) _ es Hx PE). by rewrite A4.
      + apply (glob_step _ _ _ _ _ A5 B3).
        * intros n mp ->. rewrite A4. destruct (ptr_total q') as (t & o & Ht). pose proof (Q3 _ _ (B4 _ _ Ht)) as K. destruct (body_before hp c h _ _ _ (ai_obj _ _ _ _ _ _ _ _ A Hi) K) as [K1 _].
          specialize (K1 _ _ eq_refl). apply elem_of_list_In, in_concat. exists (flat (lg, h)). split; apply elem_of_list_In; [apply elem_of_list_fmap; exists (lg, h); split; [done|by eapply elem_of_list_lookup_2]|]. unfold flat. cbn. set_solver.
        * intros n mp ->. rewrite A4. destruct (ptr_total q') as (t & o & Ht). pose proof (Q3 _ _ (B4 _ _ Ht)) as K. destruct (body_before hp c h _ _ _ (ai_obj _ _ _ _ _ _ _ _ A Hi) K) as [_ K1].
          specialize (K1 _ _ eq_refl). apply elem_of_list_In, in_concat. exists (flat (lg, h)). split; apply elem_of_list_In; [apply elem_of_list_fmap; exists (lg, h); split; [done|by eapply elem_of_list_lookup_2]|]. unfold flat. cbn. set_solver.
      + exact LB.
    - destruct T3 as (q & Q1 & Q2 & Q3). destruct Q1 as [->|(? & ? & ? & ? & _ & ? & _)]; [|done]. specialize (Q3 [] o (pt_ret o)). rewrite app_nil_r in Q3.
      assert (flat (lg ++ [h], []) ≡ₚ [] ++ flat (lg, h)) as PE by (unfold flat; cbn; rewrite concat_app; cbn; by rewrite !app_nil_r).
      exists G, (<[i := (lg ++ [h], [])]> L). split; cbn [rm_thr rm_reg].
      + by rewrite insert_length.
      + by rewrite insert_length.
      + intros j th x Hj Hxj. destruct (decide (i = j)) as [<-|N]; [|rewrite list_lookup_insert_ne in Hj by done; rewrite list_lookup_insert_ne in Hxj by done; eauto].
        rewrite list_lookup_insert in Hj by lia. rewrite list_lookup_insert in Hxj by lia. injection Hj as <-. injection Hxj as <-. split; [cbn; rewrite T1, fmap_app; cbn; by rewrite <- app_assoc|]. split; [|done]. cbn. apply Forall2_app; [exact T2|]. by repeat constructor.
      + rewrite (concat_upd flat L i (lg, h) _ [] Hx PE). done.
      + done.
      + exact LB.
  Qed.
  Lemma ainv_reach m : rtc (rstep hp) (rm_start r0 css) m -> exists G L, ainv m G L.
  Proof.
    assert (forall a m, rtc (rstep hp) a m -> (exists G L, ainv a G L) -> exists G L, ainv m G L) as K.
    { clear m. intros a m R. induction R as [|a b m S R IH]; [done|]. intros (G & L & A). apply IH. eapply ainv_step; eauto. }
    intros R. eapply K; [exact R|]. eexists _, _. apply ainv_start.
  Qed.
  (** At the end: one trace for every call made. *)
  Definition all_done (m : rmach) : list (rcall * outcome) := concat (t_done <$> rm_thr m).
  Lemma any_run m : rtc (rstep hp) (rm_start r0 css) m -> rm_done m ->
    length (rm_thr m) = length css /\ (forall i th, rm_thr m !! i = Some th -> css !! i = Some (t_done th).*1) /\
    exists T, Forall2 (fun y t => ptr (g_body hp y.1) t y.2) (all_done m) T /\ glob r0 (concat T) (rm_reg m).
  Proof.
    intros R D. destruct (ainv_reach _ R) as (G & L & [A1 A2 A3 A4 A5 A6]). split; [done|].
    assert (forall i th x, rm_thr m !! i = Some th -> L !! i = Some x -> css !! i = Some (t_done th).*1 /\ Forall2 (fun y t => ptr (g_body hp y.1) t y.2) (t_done th) x.1 /\ x.2 = []) as K.
    { intros i th x Hi Hx. destruct (A3 _ _ _ Hi Hx) as (T1 & T2 & T3). destruct (D _ _ Hi) as [D1 D2]. unfold cur_call in T1. rewrite D1, D2 in *. rewrite !app_nil_r in T1. auto. }
    split.
    { intros i th Hi. destruct (lookup_lt_is_Some_2 L i) as [x Hx]; [rewrite A2, <- A1; by apply lookup_lt_Some in Hi|]. by destruct (K _ _ _ Hi Hx). }
    exists (concat L.*1). assert (Forall2 (fun th x => Forall2 (fun y t => ptr (g_body hp y.1) t y.2) (t_done th) x.1 /\ x.2 = []) (rm_thr m) L) as F.
    { apply Forall2_same_length_lookup. split; [congruence|]. intros i th x Hi Hx. by destruct (K _ _ _ Hi Hx). }
    unfold all_done. split.
    - clear -F. induction F as [|th x l l' [F1 F2] _ IH]; cbn; [constructor|]. by apply Forall2_app.
    - apply (glob_perm _ _ _ _ A4) in A5. assert (concat (flat <$> L) = concat (concat L.*1)) as E; [|by rewrite E in A5].
      clear -F. induction F as [|th x l l' [F1 F2] _ IH]; cbn; [done|]. rewrite IH, concat_app. unfold flat. by rewrite F2, app_nil_r.
  Qed.
End any.

(** ** What this means for the registry *)
(** [c] can register the domain [ip]: its own, or that of the metric it registers. *)
Definition brings (hp : heap) (c : rcall) (ip : nat) : Prop :=
  match c with RegD ip' => ip' = ip | RegM mp => exists m cells, h_metrics hp !! mp = Some m /\ m_body m = BInst ip cells end.
Lemma dom_of_body hp m ip d : dom_of hp m = Some (ip, d) -> (exists cells, m_body m = BInst ip cells) /\ h_indoms hp !! ip = Some d /\ metric_dom hp m = Some d.
Proof.
  unfold dom_of, m_indom, metric_dom. destruct (m_body m) as [c|ip' cells]; [done|]. cbn. destruct (h_indoms hp !! ip') eqn:E; [|done]. cbn. intros [= -> ->]. eauto.
Qed.
Lemma dom_of_none hp m : dom_of hp m = None -> metric_dom hp m = None.
Proof. unfold dom_of, m_indom, metric_dom. destruct (m_body m) as [c|ip' cells]; [done|]. cbn. by destruct (h_indoms hp !! ip'). Qed.

Lemma v2_in e b long : e ∈ v2_obs b long -> e = OV2 b \/ e = OSetV2 /\ long = true.
Proof. unfold v2_obs. destruct b, long; cbn; rewrite ?elem_of_cons, ?elem_of_nil; tauto. Qed.
Lemma v2_set b (long : bool) : long = true -> OV2 true ∈ v2_obs b long \/ OSetV2 ∈ v2_obs b long.
Proof. intros ->. destruct b; cbn; set_solver. Qed.

(** What the traces of a call contain. *)
Lemma call_puts hp c t o n x : full_object hp c -> ptr (g_body hp c) t o -> OMet n x ∈ t -> o = ROk /\ c = RegM x /\ exists m, h_metrics hp !! x = Some m /\ md_name (m_desc m) = n.
Proof.
  destruct c as [mp|ip].
  - intros (m & Hm & Hd) H K. apply (ptr_metric _ _ _ _ _ Hm Hd) in H. destruct H as [| |b E|ip d b E|ip d E|ip d E|ip d b b' E]; unfold raw_obs, dom_obs in K;
      repeat (rewrite elem_of_app in K || rewrite elem_of_cons in K || rewrite elem_of_nil in K); destruct_or! K; try done; try (apply v2_in in K as [?|[? _]]; discriminate); injection K as -> ->; eauto.
  - intros (d & Hd) H K. apply (ptr_domain _ _ _ _ _ Hd) in H. destruct H; unfold dom_obs in K; repeat (rewrite elem_of_app in K || rewrite elem_of_cons in K || rewrite elem_of_nil in K); destruct_or! K; try done; apply v2_in in K as [?|[? _]]; discriminate.
Qed.
Lemma call_putd hp c t o n x : full_object hp c -> ptr (g_body hp c) t o -> ODom n x ∈ t -> o = ROk /\ brings hp c x /\ exists d, h_indoms hp !! x = Some d /\ id_name d = n /\
  (has_long_instance d = true -> OV2 true ∈ t \/ OSetV2 ∈ t).
Proof.
  destruct c as [mp|ip].
  - intros (m & Hm & Hd) H K. apply (ptr_metric _ _ _ _ _ Hm Hd) in H. destruct H as [| |b E|ip d b E|ip d E|ip d E|ip d b b' E]; unfold raw_obs, dom_obs in K |- *;
      repeat (rewrite elem_of_app in K || rewrite elem_of_cons in K || rewrite elem_of_nil in K); destruct_or! K; try done; try (apply v2_in in K as [?|[? _]]; discriminate). injection K as -> ->.
    apply dom_of_body in E as ((cells & E1) & E2 & _). split; [done|]. split; [cbn; eauto|]. exists d. split; [done|]. split; [done|]. intros L. destruct (v2_set b _ L); set_solver.
  - intros (d & Hd) H K. apply (ptr_domain _ _ _ _ _ Hd) in H. destruct H as [| |b]; unfold dom_obs in K |- *; repeat (rewrite elem_of_app in K || rewrite elem_of_cons in K || rewrite elem_of_nil in K); destruct_or! K; try done; try (apply v2_in in K as [?|[? _]]; discriminate).
    injection K as -> ->. split; [done|]. split; [done|]. exists d. split; [done|]. split; [done|]. intros L. destruct (v2_set b _ L); set_solver.
Qed.
Lemma call_metric hp mp m t o : h_metrics hp !! mp = Some m -> full_object hp (RegM mp) -> ptr (g_body hp (RegM mp)) t o ->
  let n := md_name (m_desc m) in
  o = ROk /\ OMapped false ∈ t /\ OSawM n false ∈ t /\ OMet n mp ∈ t /\ (forall d, metric_dom hp m = Some d -> OSawD (id_name d) true ∈ t \/ exists ip, ODom (id_name d) ip ∈ t) /\
    (MaxV1NameLength < zlen n -> OV2 true ∈ t \/ OSetV2 ∈ t) /\ osum NVal t = n_values hp m \/
  o = RErr /\ (OMapped true ∈ t \/ OSawM n true ∈ t \/ exists d, metric_dom hp m = Some d /\ OSawD (id_name d) false ∈ t /\ OSawD (id_name d) true ∈ t) /\ osum NVal t = 0.
Proof.
  intros Hm (m' & Hm' & Hd) H n. assert (m' = m) as -> by congruence. apply (ptr_metric _ _ _ _ _ Hm Hd) in H.
  assert (forall b l, osum NVal (v2_obs b l) = 0) as Z0 by (intros [] []; reflexivity).
  destruct H as [| |b E|ip d b E|ip d E|ip d E|ip d b b' E]; fold n.
  - right. split; [done|]. split; [left; set_solver|done].
  - right. split; [done|]. split; [right; left; set_solver|done].
  - left. unfold raw_obs. apply dom_of_none in E. fold n. split_and!; [done|set_solver|set_solver|set_solver|congruence| |].
    + intros L. destruct (v2_set b (MaxV1NameLength <? zlen n)); [lia|set_solver|set_solver].
    + rewrite !osum_app, !osum_cons, osum_app, Z0. unfold n_values. rewrite E. change (osum NVal []) with 0. cbn. rewrite decide_True by done. lia.
  - left. unfold raw_obs. apply dom_of_body in E as (_ & _ & E). fold n. split_and!; [done|set_solver|set_solver|set_solver| | |].
    + intros d' Hd'. assert (d' = d) as -> by congruence. left. set_solver.
    + intros L. destruct (v2_set b (MaxV1NameLength <? zlen n)); [lia|set_solver|set_solver].
    + rewrite !osum_app, !osum_cons, osum_app, Z0. unfold n_values. rewrite E. change (osum NVal []) with 0. cbn. rewrite !decide_True by done. unfold instance_count. lia.
  - right. apply dom_of_body in E as (_ & _ & E). split; [done|]. split; [|done]. right. right. exists d. split; [done|]. set_solver.
  - right. split; [done|]. split; [|done]. left. set_solver.
  - left. unfold raw_obs, dom_obs. apply dom_of_body in E as (_ & _ & E). fold n. split_and!; [done|set_solver|set_solver|set_solver| | |].
    + intros d' Hd'. assert (d' = d) as -> by congruence. right. exists ip. set_solver.
    + intros L. destruct (v2_set b' (MaxV1NameLength <? zlen n)); [lia|set_solver|set_solver].
    + rewrite !osum_app, !osum_cons, !osum_app, !Z0. unfold n_values. rewrite E. change (osum NVal []) with 0. cbn. repeat case_decide; try done. unfold instance_count. lia.
Qed.
Lemma call_domain hp ip d t o : h_indoms hp !! ip = Some d -> ptr (g_body hp (RegD ip)) t o ->
  (o = ROk /\ OMapped false ∈ t /\ OSawD (id_name d) false ∈ t /\ ODom (id_name d) ip ∈ t \/ o = RErr /\ (OMapped true ∈ t \/ OSawD (id_name d) true ∈ t)) /\ osum NVal t = 0.
Proof.
  intros Hd H. apply (ptr_domain _ _ _ _ _ Hd) in H. destruct H as [| |b].
  - split; [|done]. right. split; [done|]. right. set_solver.
  - split; [|done]. right. split; [done|]. left. set_solver.
  - split; [left; unfold dom_obs; set_solver|]. unfold dom_obs. rewrite osum_app, !osum_cons. by destruct b, (has_long_instance d).
Qed.

Definition ok_values (hp : heap) (y : rcall * outcome) : Z :=
  match y with (RegM mp, ROk) => match h_metrics hp !! mp with Some m => n_values hp m | None => 0 end | _ => 0 end.
Lemma concurrent_always hp r0 css m : heap_ok hp -> reg_ok hp r0 -> (forall l c, l ∈ css -> c ∈ l -> has_object hp c) ->
  rtc (rstep hp) (rm_start r0 css) m -> rm_done m -> let r := rm_reg m in let log := concat (t_done <$> rm_thr m) in
  (length (rm_thr m) = length css /\ forall i th, rm_thr m !! i = Some th -> css !! i = Some (t_done th).*1) /\
  (r_mapped r = r_mapped r0 /\ r_metrics r0 ⊆ r_metrics r /\ r_indoms r0 ⊆ r_indoms r) /\
  (forall n mp, r_metrics r !! n = Some mp -> r_metrics r0 !! n = Some mp \/ (RegM mp, ROk) ∈ log /\ exists mt, h_metrics hp !! mp = Some mt /\ md_name (m_desc mt) = n) /\
  (forall n ip, r_indoms r !! n = Some ip -> r_indoms r0 !! n = Some ip \/ (exists c, (c, ROk) ∈ log /\ brings hp c ip) /\ exists d, h_indoms hp !! ip = Some d /\ id_name d = n) /\
  (forall mp mt o, (RegM mp, o) ∈ log -> h_metrics hp !! mp = Some mt -> let n := md_name (m_desc mt) in
    o = ROk /\ r_mapped r0 = false /\ r_metrics r0 !! n = None /\ is_Some (r_metrics r !! n) /\ (forall d, metric_dom hp mt = Some d -> is_Some (r_indoms r !! id_name d)) \/
    o = RErr /\ (r_mapped r0 = true \/ is_Some (r_metrics r !! n) \/ exists d, metric_dom hp mt = Some d /\ r_indoms r0 !! id_name d = None /\ is_Some (r_indoms r !! id_name d))) /\
  (forall ip d o, (RegD ip, o) ∈ log -> h_indoms hp !! ip = Some d ->
    o = ROk /\ r_mapped r0 = false /\ r_indoms r0 !! id_name d = None /\ is_Some (r_indoms r !! id_name d) \/
    o = RErr /\ (r_mapped r0 = true \/ is_Some (r_indoms r !! id_name d))) /\
  ValuesCount r = ValuesCount r0 + sumZ (map (ok_values hp) log) /\
  (spec_long hp r -> r_version2 r = true).
Proof.
  intros Hh Hr Ho R D r log.
  assert (forall c, has_object hp c -> full_object hp c) as Fo.
  { intros [mp|ip] H; [|done]. destruct H as [mt Hm]. exists mt. split; [done|]. intros ip Hi. pose proof (mo_body _ _ (ho_metrics _ Hh _ _ Hm)) as B. unfold m_indom in Hi. destruct (m_body mt); [done|]. injection Hi as <-. destruct B as (d & Hd & _). eauto. }
  destruct (any_run hp r0 css (fun l c H1 H2 => Fo c (Ho l c H1 H2)) m R D) as (A1 & A2 & T & A3 & A4). fold r in A4. change (all_done m) with log in A3.
  assert (forall y, y ∈ log -> full_object hp y.1) as Fl.
  { intros y Hy. apply elem_of_list_In, in_concat in Hy as (l & Hl & Hy). apply elem_of_list_In in Hl, Hy. apply elem_of_list_fmap in Hl as (th & -> & Hth). apply elem_of_list_lookup in Hth as [i Hi]. apply Fo. eapply Ho; [eapply elem_of_list_lookup_2, A2, Hi|]. by apply elem_of_list_fmap_1. }
  assert (forall e, e ∈ concat T -> exists y t, y ∈ log /\ ptr (g_body hp y.1) t y.2 /\ e ∈ t /\ (forall e', e' ∈ t -> e' ∈ concat T)) as In.
  { intros e He. apply elem_of_list_In, in_concat in He as (t & Ht & He). apply elem_of_list_In in Ht, He. pose proof Ht as Ht0. apply elem_of_list_lookup in Ht as [i Ht]. destruct (Forall2_lookup_r _ _ _ _ _ A3 Ht) as (y & Hy & P). exists y, t. split; [by eapply elem_of_list_lookup_2|]. split; [done|]. split; [done|].
    intros e' He'. apply elem_of_list_In, in_concat. exists t. split; by apply elem_of_list_In. }
  assert (forall y, y ∈ log -> exists t, ptr (g_body hp y.1) t y.2 /\ forall e, e ∈ t -> e ∈ concat T) as Ou.
  { intros y Hy. apply elem_of_list_lookup in Hy as [i Hy]. destruct (Forall2_lookup_l _ _ _ _ _ A3 Hy) as (t & Ht & P). exists t. split; [done|]. intros e He. apply elem_of_list_In, in_concat. exists t. split; apply elem_of_list_In; [by eapply elem_of_list_lookup_2|done]. }
  destruct A4 as [P0 P1 M0 M1 M2 M3 M4 D0 D1 D2 D3 D4 V V2 C].
  assert (OV2 true ∈ concat T \/ OSetV2 ∈ concat T -> r_version2 r = true) as VV by (intros [?|?]; [auto|apply V; auto]).
  split; [done|]. split; [split; [done|split; intros n; destruct (_ !! n) eqn:E; cbn; [rewrite (M0 _ _ E); done|by destruct (r_metrics r !! n)|rewrite (D0 _ _ E); done|by destruct (r_indoms r !! n)]]|].
  split; [|split; [|split; [|split; [|split]]]].
  - intros n mp H. apply M1 in H as [H|H]; [auto|]. right. destruct (In _ H) as ([c o] & t & L & P & E & _). destruct (call_puts _ _ _ _ _ _ (Fl _ L) P E) as (E1 & E2 & E3). cbn in E1, E2. subst. auto.
  - intros n ip H. apply D1 in H as [H|H]; [auto|]. right. destruct (In _ H) as ([c o] & t & L & P & E & _). destruct (call_putd _ _ _ _ _ _ (Fl _ L) P E) as (E1 & E2 & d & E3 & E4 & _). cbn in E1, E2. subst. eauto 6.
  - intros mp mt o L Hm n. destruct (Ou _ L) as (t & P & I). destruct (call_metric _ _ _ _ _ Hm (Fl _ L) P) as [(E & K1 & K2 & K3 & K4 & K5 & _)|(E & K & _)]; cbn [snd] in E; subst o.
    + left. split_and!; [done|symmetry; auto|auto|eauto|]. intros d Hd. destruct (K4 d Hd) as [K|[ip K]]; eauto.
    + right. split; [done|]. destruct K as [K|[K|(d & Hd & K6 & K7)]]; [left; symmetry; auto|right; left; auto|right; right; exists d; split; [done|]; split; [apply D3|apply D4]; auto].
  - intros ip d o L Hd. destruct (Ou _ L) as (t & P & I). destruct (call_domain _ _ _ _ _ Hd P) as [[(E & K1 & K2 & K3)|(E & K)] _]; cbn [snd] in *; subst o.
    + left. split_and!; [done|symmetry; auto|auto|eauto].
    + right. split; [done|]. destruct K as [K|K]; [left; symmetry; auto|right; auto].
  - unfold ValuesCount. pose proof (C NVal ltac:(done)) as Cv. cbn [cnt] in Cv. rewrite Cv. f_equal. clear -A3 Fl. induction A3 as [|y t l T P _ IH]; [done|]. cbn [concat map sumZ]. rewrite osum_app, IH by (intros; apply Fl; set_solver). f_equal.
    assert (full_object hp y.1) as F by (apply Fl; set_solver). destruct y as [[mp|ip] o]; cbn [fst snd] in *.
    + destruct F as (mt & Hm & Hd). destruct (call_metric _ _ _ _ _ Hm (ex_intro _ mt (conj Hm Hd)) P) as [(E & _ & _ & _ & _ & _ & K)|(E & _ & K)]; subst o; rewrite K; cbn; by rewrite ?Hm.
    + destruct F as (d & Hd). by destruct (call_domain _ _ _ _ _ Hd P) as [_ K].
  - intros [L|L]; apply Exists_exists in L as (x & Hx & L); apply elem_of_list_omap in Hx as (a & Ha & Hx); apply elem_of_list_fmap in Ha as ([n a'] & -> & Ha); apply elem_of_map_to_list in Ha; cbn [snd] in Hx.
    + apply D1 in Ha as [Ha|Ha].
      * apply V. left. apply (ro_v2 _ _ Hr). left. apply Exists_exists. exists x. split; [|done]. apply elem_of_list_omap. exists a'. split; [|done]. apply elem_of_list_fmap. exists (n, a'). split; [done|]. by apply elem_of_map_to_list.
      * destruct (In _ Ha) as ([c o] & t & Lg & P & E & I). destruct (call_putd _ _ _ _ _ _ (Fl _ Lg) P E) as (_ & _ & d & E3 & _ & E5). assert (d = x) as -> by congruence. apply VV. apply has_long_spec in L. destruct (E5 L); auto.
    + apply M1 in Ha as [Ha|Ha].
      * apply V. left. apply (ro_v2 _ _ Hr). right. apply Exists_exists. exists x. split; [|done]. apply elem_of_list_omap. exists a'. split; [|done]. apply elem_of_list_fmap. exists (n, a'). split; [done|]. by apply elem_of_map_to_list.
      * destruct (In _ Ha) as ([c o] & t & Lg & P & E & I). destruct (call_puts _ _ _ _ _ _ (Fl _ Lg) P E) as (E1 & E2 & _). cbn in E1, E2. subst. destruct (call_metric _ _ _ _ _ Hx (Fl _ Lg) P) as [(_ & _ & _ & _ & _ & K & _)|(K & _)]; [|done].
        apply VV. destruct (K L); auto.
Qed.

(** With different metric names the counted values are those of the registered metrics. *)
Definition met_name (hp : heap) (c : rcall) : option gostring :=
  match c with RegM mp => (fun m => md_name (m_desc m)) <$> h_metrics hp !! mp | RegD _ => None end.
Lemma NoDup_omap_inj {A B : Type} (f : A -> option B) (l : list A) x y a : NoDup (omap f l) -> x ∈ l -> y ∈ l -> f x = Some a -> f y = Some a -> x = y.
Proof.
  induction l as [|z l IH]; [set_solver|]. cbn. intros N Hx Hy Fx Fy. apply elem_of_cons in Hx, Hy. destruct (f z) as [b|] eqn:E.
  - apply NoDup_cons in N as [N1 N2]. destruct Hx as [->|Hx], Hy as [->|Hy]; auto.
    + exfalso. apply N1. apply elem_of_list_omap. exists y. split; [done|congruence].
    + exfalso. apply N1. apply elem_of_list_omap. exists x. split; [done|congruence].
  - destruct Hx as [->|Hx], Hy as [->|Hy]; auto; congruence.
Qed.
Definition ok_pair (hp : heap) (y : rcall * outcome) : option (gostring * nat) :=
  match y with (RegM mp, ROk) => (fun m => (md_name (m_desc m), mp)) <$> h_metrics hp !! mp | _ => None end.
Lemma concat_done css (ts : list (thr rcall rprog outcome)) : length ts = length css -> (forall i th, ts !! i = Some th -> css !! i = Some (t_done th).*1) -> (concat (t_done <$> ts)).*1 = concat css.
Proof.
  revert css. induction ts as [|t ts IH]; intros [|l css]; try done. cbn. intros E H. rewrite fmap_app. rewrite (IH css); [|lia|exact (fun i => H (S i))]. specialize (H 0%nat t eq_refl). cbn in H. by injection H as ->.
Qed.
Lemma concurrent_values hp r0 css m : heap_ok hp -> reg_ok hp r0 -> (forall l c, l ∈ css -> c ∈ l -> has_object hp c) -> NoDup (omap (met_name hp) (concat css)) ->
  rtc (rstep hp) (rm_start r0 css) m -> rm_done m -> let r := rm_reg m in ValuesCount r = spec_values hp r.
Proof.
  intros Hh Hr Ho N R D r. destruct (concurrent_always hp r0 css m Hh Hr Ho R D) as ((A1 & A2) & (_ & A3 & _) & A4 & _ & A5 & _ & A6 & _). fold r in A3, A4, A5, A6.
  set (log := concat (t_done <$> rm_thr m)) in *. pose proof (concat_done _ _ A1 A2) as EL. fold log in EL.
  assert (map_to_list (r_metrics r) ≡ₚ map_to_list (r_metrics r0) ++ omap (ok_pair hp) log) as P.
  { apply NoDup_Permutation.
    - apply NoDup_map_to_list.
    - apply NoDup_app. split; [apply NoDup_map_to_list|]. split.
      + intros [n mp] H1 H2. apply elem_of_map_to_list in H1. apply elem_of_list_omap in H2 as ([[mp'|] o] & H2 & H3); [|done]. destruct o; try done. cbn in H3. destruct (h_metrics hp !! mp') as [mt|] eqn:E; [|done]. injection H3 as <- <-.
        destruct (A5 _ _ _ H2 E) as [(_ & _ & K & _)|[K _]]; congruence.
      + assert (forall l, NoDup (omap (met_name hp) l.*1) -> NoDup (omap (ok_pair hp) l)) as K; [|apply K; by rewrite EL].
        clear. induction l as [|[[mp|ip] o] l IH]; cbn; [constructor| |exact IH]. destruct (h_metrics hp !! mp) as [mt|] eqn:E; cbn; [|by destruct o]. intros H. apply NoDup_cons in H as [H1 H2].
        assert (NoDup (omap (ok_pair hp) l)) by auto. destruct o; try done. constructor; [|done]. intros H3. apply H1. apply elem_of_list_omap in H3 as ([[mp'|] o] & H3 & H4); [|done]. destruct o; try done. cbn in H4. destruct (h_metrics hp !! mp') as [mt'|] eqn:E'; [|done]. injection H4 as H4 H5. subst mp'.
        apply elem_of_list_omap. exists (RegM mp). split; [|cbn; rewrite E; done]. apply elem_of_list_fmap. exists (RegM mp, ROk). done.
    - intros [n mp]. rewrite elem_of_app, !elem_of_map_to_list. split.
      + intros H. destruct (A4 _ _ H) as [K|(K & mt & E & <-)]; [auto|]. right. apply elem_of_list_omap. exists (RegM mp, ROk). split; [done|]. cbn. by rewrite E.
      + intros [H|H]; [by eapply lookup_weaken|]. apply elem_of_list_omap in H as ([[mp'|] o] & H2 & H3); [|done]. destruct o; try done. cbn in H3. destruct (h_metrics hp !! mp') as [mt|] eqn:E; [|done]. injection H3 as <- <-.
        destruct (A5 _ _ _ H2 E) as [(_ & _ & K0 & [mp2 K] & _)|[K _]]; [|done]. destruct (A4 _ _ K) as [K1|(K1 & mt2 & E2 & K2)]; [congruence|].
        assert (RegM mp2 = RegM mp') as J; [|injection J as ->; exact K].
        apply (NoDup_omap_inj (met_name hp) (concat css) _ _ (md_name (m_desc mt)) N); [rewrite <- EL; by apply (elem_of_list_fmap_1 fst _ (RegM mp2, ROk))|rewrite <- EL; by apply (elem_of_list_fmap_1 fst _ (RegM mp', ROk))|cbn; rewrite E2; cbn; congruence|cbn; by rewrite E]. }
  rewrite A6. unfold ValuesCount. rewrite (ro_vc _ _ Hr). unfold spec_values, reg_metrics. rewrite P, fmap_app, omap_app, map_app, sumZ_app. f_equal.
  clear. induction log as [|[[mp|ip] o] l IH]; [done| |exact IH]. cbn [map sumZ omap list_omap ok_values ok_pair]. rewrite IH. destruct o; try done. destruct (h_metrics hp !! mp) as [mt|] eqn:E; [|done]. cbn. rewrite E. reflexivity.
Qed.
