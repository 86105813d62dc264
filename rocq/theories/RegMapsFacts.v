(** The locks a goroutine holds when it accesses a map of the registry. *)
From Verif Require Import Base GoVal MetricType Indom Metrics Registry Locks RegConc RegMaps.
From stdpp Require Import relations.
Local Open Scope Z_scope.

Inductive hmode := HN | HR | HW.
Definition holds := (hmode * hmode)%type.
Definition hget (x : rlk) (h : holds) : hmode := match x with KDom => h.1 | KMet => h.2 end.
Definition hput (x : rlk) (m : hmode) (h : holds) : holds := match x with KDom => (m, h.2) | KMet => (h.1, m) end.
Definition h0 : holds := (HN, HN).
Lemma hget_put x m h : hget x (hput x m h) = m. Proof. by destruct x. Qed.
Lemma hget_put_ne x y m h : x <> y -> hget y (hput x m h) = hget y h. Proof. by destruct x, y. Qed.
Lemma h0_eq h : (forall x, hget x h = HN) -> h = h0.
Proof. intros H. pose proof (H KDom). pose proof (H KMet). destruct h. cbn in *. by subst. Qed.

(** Holding [h], the rest of a method accesses each map under its lock, and returns without any. *)
Inductive wl : holds -> rprog -> Prop :=
| wl_ret o : wl h0 (GRet o)
| wl_lock h x k : hget x h = HN -> wl (hput x HW h) k -> wl h (GLock x k)
| wl_unlock h x k : hget x h = HW -> wl (hput x HN h) k -> wl h (GUnlock x k)
| wl_rlock h x k : hget x h = HN -> wl (hput x HR h) k -> wl h (GRLock x k)
| wl_runlock h x k : hget x h = HR -> wl (hput x HN h) k -> wl h (GRUnlock x k)
| wl_mapped h k : (forall b, wl h (k b)) -> wl h (GMapped k)
| wl_hasm h n k : hget KMet h <> HN -> (forall b, wl h (k b)) -> wl h (GHasM n k)
| wl_hasd h n k : hget KDom h <> HN -> (forall b, wl h (k b)) -> wl h (GHasD n k)
| wl_putm h n mp k : hget KMet h = HW -> wl h k -> wl h (GPutM n mp k)
| wl_putd h n ip k : hget KDom h = HW -> wl h k -> wl h (GPutD n ip k)
| wl_add h c z k : wl h k -> wl h (GAdd c z k)
| wl_set h c v k : wl h k -> wl h (GSet c v k)
| wl_v2 h k : (forall b, wl h (k b)) -> wl h (GV2 k)
| wl_setv2 h k : wl h k -> wl h (GSetV2 k).

Lemma wl_text h s k : wl h k -> wl h (g_text s k).
Proof. intros H. unfold g_text. destruct (nonempty s); [by constructor|done]. Qed.
Lemma wl_gv2 h b k : wl h k -> wl h (g_v2 b k).
Proof. intros H. constructor. intros b'. destruct (_ && _); [by constructor|done]. Qed.
Lemma wl_has_metric n k : (forall b, wl h0 (k b)) -> wl h0 (g_has_metric n k).
Proof. intros H. constructor; [done|]. constructor; [done|]. intros b. constructor; [done|]. apply H. Qed.
Lemma wl_has_indom n k : (forall b, wl h0 (k b)) -> wl h0 (g_has_indom n k).
Proof. intros H. constructor; [done|]. constructor; [done|]. intros b. constructor; [done|]. apply H. Qed.
Lemma wl_add_indom ip d kok kerr : wl h0 kok -> wl h0 kerr -> wl h0 (g_add_indom ip d kok kerr).
Proof.
  intros H1 H2. apply wl_has_indom. intros [|]; [done|]. constructor; [done|]. constructor. intros [|]; [by constructor|].
  constructor; [done|]. constructor. apply wl_gv2. apply wl_text, wl_text. by constructor.
Qed.
Lemma wl_add_raw mp m dom : wl h0 (g_add_raw mp m dom).
Proof.
  constructor; [done|]. constructor; [done|]. apply wl_gv2. constructor.
  assert (wl (hput KMet HW h0) (g_text (md_short (m_desc m)) (g_text (md_long (m_desc m)) (GUnlock KMet (GRet ROk))))) as H
    by (apply wl_text, wl_text; constructor; [done|]; constructor).
  cbv zeta. destruct (_ =? _); [by constructor|done].
Qed.
Lemma wl_add_metric hp mp m : wl h0 (g_add_metric hp mp m).
Proof.
  constructor. intros [|]; [constructor|]. apply wl_has_metric. intros [|]; [constructor|]. destruct (m_indom m) as [ip|]; [|apply wl_add_raw].
  destruct (h_indoms hp !! ip) as [d|]; [|constructor]. apply wl_has_indom. intros [|]; [apply wl_add_raw|]. apply wl_add_indom; [apply wl_add_raw|constructor].
Qed.
Lemma wl_body hp c : wl h0 (g_body hp c).
Proof.
  destruct c as [mp|ip]; cbn.
  - destruct (h_metrics hp !! mp); [apply wl_add_metric|constructor].
  - destruct (h_indoms hp !! ip); [apply wl_add_indom; constructor|constructor].
Qed.

(** The same for the rest of a call, which may look at the maps without a lock between two methods. *)
Inductive wx : holds -> xprog -> Prop :=
| wx_ret o : wx h0 (XRet o)
| wx_do h p k : wl h p -> (forall o, wx h0 (k o)) -> wx h (XDo p k)
| wx_get n k : (forall v, wx h0 (k v)) -> wx h0 (XGetD n k)
| wx_heap k : (forall v, wx h0 (k v)) -> wx h0 (XHeap k)
| wx_newd ip d k : wx h0 k -> wx h0 (XNewD ip d k)
| wx_newm mp m k : wx h0 k -> wx h0 (XNewM mp m k)
| wx_scan x k : wx h0 k -> wx h0 (XScan x k)
| wx_mapped k : wx h0 k -> wx h0 (XMapped k).
Lemma wx_x_add_metric mp m : wx h0 (x_add_metric mp m).
Proof. constructor. constructor. intros hp. constructor; [apply wl_add_metric|constructor]. Qed.
Lemma wx_by_name ip name l k : wx h0 k -> wx h0 (x_by_name ip name l k).
Proof.
  intros H. constructor; [apply wl_has_indom; intros; constructor|]. intros o.
  assert (wx h0 (match new_indom name l [] with None => XRet RErr
           | Some d => XNewD ip d (XDo (g_add_indom ip d (GRet ROk) (GRet RErr)) (fun o => match o with ROk => k | _ => XRet o end)) end)) as K.
  { destruct (new_indom name l []) as [d|]; [|constructor]. constructor. constructor; [apply wl_add_indom; constructor|]. intros [| | |]; try constructor. done. }
  destruct o; try exact K. constructor.
Qed.
Lemma wx_instance_with mp ip name vals t s u order : wx h0 (x_instance_with mp ip name vals t s u order).
Proof. constructor. intros hp. destruct (h_indoms hp !! ip); [|constructor]. destruct (NewPCPInstanceMetric _ _ _ _ _ _ _ _ _); [apply wx_x_add_metric|constructor]. Qed.
Lemma wx_instance mp ip name val iname l t s u order : wx h0 (x_instance mp ip name val iname l t s u order).
Proof.
  unfold x_instance. destruct val as [v|vals]; [constructor|]. constructor; [apply wl_has_indom; intros; constructor|]. intros o.
  pose proof (wx_by_name ip iname l _ (wx_instance_with mp ip name vals t s u order)) as K. destruct o; try exact K.
  constructor. intros [ip1|]; [|constructor]. constructor. intros hp. destruct (h_indoms hp !! ip1); [|constructor]. destruct (match_instances _ _); [|constructor].
  constructor. intros [ip2|]; [|constructor]. apply wx_instance_with.
Qed.
Lemma wl_len_dom : wl h0 g_len_dom.
Proof. constructor; [done|]. constructor; [done|]. intros b. constructor; [done|]. constructor. Qed.
Lemma wl_len_met : wl h0 g_len_met.
Proof. constructor; [done|]. constructor; [done|]. intros b. constructor; [done|]. constructor. Qed.
Lemma wx_body c : wx h0 (x_body c).
Proof.
  destruct c as [n|n| | |c|ip name l|mp ip name iname [l|] val t s u order|]; cbn.
  - constructor; [apply wl_has_metric; intros; constructor|constructor].
  - constructor; [apply wl_has_indom; intros; constructor|constructor].
  - constructor; [apply wl_len_met|constructor].
  - constructor; [apply wl_len_dom|constructor].
  - constructor. intros hp. constructor; [apply wl_body|constructor].
  - apply wx_by_name. constructor.
  - apply wx_instance.
  - unfold x_singleton. destruct (NewPCPSingletonMetric _ _ _ _ _ _); [apply wx_x_add_metric|constructor].
  - constructor; [apply wl_len_dom|]. intros _. constructor; [apply wl_len_met|]. intros _. repeat constructor.
Qed.

(** ** The invariant *)
Definition cur_ok (h : holds) (t : thr xcall xprog outcome) : Prop := match t_cur t with Some (_, p) => wx h p | None => h = h0 end.
Definition lock_is (f : rlk -> lk) (i : nat) (h : holds) : Prop := forall x,
  match f x with LkW j => hget x h = if decide (i = j) then HW else HN | LkR X => hget x h = if decide (i ∈ X) then HR else HN end.
Definition minv (m : xmach) : Prop := forall i t, xm_thr m !! i = Some t -> exists h, cur_ok h t /\ lock_is (xm_st m).2 i h.

Lemma wl_step i p r f p' r' f' h : gnext i p r f = Some (p', r', f') -> wl h p -> lock_is f i h ->
  exists h', wl h' p' /\ lock_is f' i h' /\ forall j hj, j <> i -> lock_is f j hj -> lock_is f' j hj.
Proof.
  intros E W L. destruct W; cbn [gnext] in E; try discriminate.
  - pose proof (L x) as Lx. destruct (f x) as [j|X] eqn:Ef; [discriminate|]. destruct (decide (X = ∅)) as [->|]; [|discriminate]. injection E as <- <- <-.
    eexists. split; [exact W|]. split.
    + intros y. unfold set_lock. destruct (decide (y = x)) as [->|N]; [rewrite hget_put; by rewrite decide_True|]. rewrite hget_put_ne by done. apply L.
    + intros j hj Nj Lj y. unfold set_lock. destruct (decide (y = x)) as [->|N]; [|apply Lj]. specialize (Lj x). rewrite Ef in Lj. rewrite decide_False in Lj by set_solver. by rewrite decide_False.
  - injection E as <- <- <-. pose proof (L x) as Lx. destruct (f x) as [j|X] eqn:Ef; [|case_decide; congruence]. case_decide as Ej; [subst j|congruence].
    eexists. split; [exact W|]. split.
    + intros y. unfold set_lock. destruct (decide (y = x)) as [->|N]; [rewrite hget_put; by rewrite decide_False by set_solver|]. rewrite hget_put_ne by done. apply L.
    + intros j hj Nj Lj y. unfold set_lock. destruct (decide (y = x)) as [->|N]; [|apply Lj]. specialize (Lj x). rewrite Ef in Lj. rewrite decide_False in Lj by done. by rewrite decide_False by set_solver.
  - pose proof (L x) as Lx. destruct (f x) as [j|X] eqn:Ef; [discriminate|]. injection E as <- <- <-.
    eexists. split; [exact W|]. split.
    + intros y. unfold set_lock. destruct (decide (y = x)) as [->|N]; [rewrite hget_put; by rewrite decide_True by set_solver|]. rewrite hget_put_ne by done. apply L.
    + intros j hj Nj Lj y. unfold set_lock. destruct (decide (y = x)) as [->|N]; [|apply Lj]. specialize (Lj x). rewrite Ef in Lj. rewrite Lj. apply decide_ext. set_solver.
  - pose proof (L x) as Lx. destruct (f x) as [j|X] eqn:Ef; [discriminate|]. injection E as <- <- <-.
    eexists. split; [exact W|]. split.
    + intros y. unfold set_lock. destruct (decide (y = x)) as [->|N]; [rewrite hget_put; by rewrite decide_False by set_solver|]. rewrite hget_put_ne by done. apply L.
    + intros j hj Nj Lj y. unfold set_lock. destruct (decide (y = x)) as [->|N]; [|apply Lj]. specialize (Lj x). rewrite Ef in Lj. rewrite Lj. apply decide_ext. set_solver.
  - injection E as <- <- <-. eauto.
  - injection E as <- <- <-. eauto.
  - injection E as <- <- <-. eauto.
  - injection E as <- <- <-. eauto.
  - injection E as <- <- <-. eauto.
  - injection E as <- <- <-. exists h. split; [by constructor|auto].
  - injection E as <- <- <-. eauto.
  - injection E as <- <- <-. eauto.
  - injection E as <- <- <-. eauto.
Qed.
Lemma wx_step i p s p' s' h : xnext i p s p' s' -> wx h p -> lock_is s.2 i h ->
  exists h', wx h' p' /\ lock_is s'.2 i h' /\ forall j hj, j <> i -> lock_is s.2 j hj -> lock_is s'.2 j hj.
Proof.
  intros N W L. destruct N as [p k hp r f p' r' f' E|o k s|n k hp r f|k hp r f|ip d k hp r f|mp m k hp r f|x y k s|x k s|k hp r f]; inversion W; subst.
  - destruct (wl_step _ _ _ _ _ _ _ _ E ltac:(eassumption) L) as (h' & K1 & K2 & K3). exists h'. split; [by constructor|auto].
  - match goal with H : wl _ (GRet _) |- _ => inversion H; subst end. eauto.
  - eauto.
  - eauto.
  - eauto.
  - eauto.
  - exists h0. split; [by constructor|auto].
  - eauto.
  - eauto.
Qed.
Lemma minv_step m m' : xstep m m' -> minv m -> minv m'.
Proof.
  intros St I. destruct St as [s ts i d c l Hi|s ts i d c p l p' s' Hi N|s ts i d c o l Hi].
  - intros j t Hj. cbn in *. destruct (decide (j = i)) as [->|Nj]; [|rewrite list_lookup_insert_ne in Hj by done; exact (I j t Hj)].
    rewrite list_lookup_insert in Hj by (by eapply lookup_lt_Some). injection Hj as <-. destruct (I i _ Hi) as (h & H1 & H2). unfold cur_ok in H1. cbn in H1. subst h. exists h0. split; [apply wx_body|done].
  - destruct (I i _ Hi) as (h & H1 & H2). unfold cur_ok in H1. cbn in H1, H2. destruct (wx_step _ _ _ _ _ _ N H1 H2) as (h' & W1 & W2 & W3).
    intros j t Hj. cbn in *. destruct (decide (j = i)) as [->|Nj].
    + rewrite list_lookup_insert in Hj by (by eapply lookup_lt_Some). injection Hj as <-. exists h'. done.
    + rewrite list_lookup_insert_ne in Hj by done. destruct (I j t Hj) as (hj & J1 & J2). exists hj. split; [done|]. by apply W3.
  - intros j t Hj. cbn in *. destruct (decide (j = i)) as [->|Nj]; [|rewrite list_lookup_insert_ne in Hj by done; exact (I j t Hj)].
    rewrite list_lookup_insert in Hj by (by eapply lookup_lt_Some). injection Hj as <-. destruct (I i _ Hi) as (h & H1 & H2). unfold cur_ok in H1. cbn in H1. inversion H1; subst. exists h0. done.
Qed.
Lemma minv_start hp r css : minv (xm_start hp r css).
Proof.
  intros i t Hi. cbn in Hi. rewrite list_lookup_fmap in Hi. destruct (css !! i); [|discriminate]. injection Hi as <-. exists h0. split; [done|]. intros x. cbn. rewrite decide_False by set_solver. by destruct x.
Qed.
Lemma minv_run hp r css m : rtc xstep (xm_start hp r css) m -> minv m.
Proof. intros R. assert (forall a b, rtc xstep a b -> minv a -> minv b) as K by (induction 1; eauto using minv_step). eapply K; [exact R|]. apply minv_start. Qed.

(** A write is made under the write lock, a read by a method under the lock. *)
Definition map_lock (x : rmap) : rlk := match x with TDom => KDom | TMet => KMet end.
Definition unlocked_read (p : xprog) : bool := match p with XGetD _ _ | XScan _ _ => true | _ => false end.
Lemma access_holds h p x wr : wx h p -> x_access p = Some (x, wr) -> (if wr then hget (map_lock x) h = HW else unlocked_read p = true \/ hget (map_lock x) h <> HN).
Proof.
  intros W A. destruct W as [|h p k W|n k|k|ip d k|mp m k|y k|k]; cbn in A; try discriminate; [|injection A as <- <-; by left|injection A as <- <-; by left].
  destruct W; cbn in A; try discriminate; injection A as <- <-; cbn; auto.
Qed.
Lemma conflict_unlocked hp r css m i j ti tj ci cj pi pj x wr : rtc xstep (xm_start hp r css) m -> i <> j ->
  xm_thr m !! i = Some ti -> t_cur ti = Some (ci, pi) -> x_access pi = Some (x, true) ->
  xm_thr m !! j = Some tj -> t_cur tj = Some (cj, pj) -> x_access pj = Some (x, wr) -> wr = false /\ unlocked_read pj = true.
Proof.
  intros R N Hi Ci Ai Hj Cj Aj. pose proof (minv_run _ _ _ _ R) as I. destruct (I i ti Hi) as (hi & Wi & Li). destruct (I j tj Hj) as (hj & Wj & Lj).
  unfold cur_ok in Wi, Wj. rewrite Ci in Wi. rewrite Cj in Wj. pose proof (access_holds _ _ _ _ Wi Ai) as Ki. pose proof (access_holds _ _ _ _ Wj Aj) as Kj. cbn in Ki.
  specialize (Li (map_lock x)). specialize (Lj (map_lock x)). destruct ((xm_st m).2 (map_lock x)) as [k|X]; [|destruct (decide (i ∈ X)); congruence].
  destruct (decide (i = k)) as [<-|]; [|congruence]. rewrite decide_False in Lj by done. destruct wr; [congruence|]. destruct Kj as [Kj|Kj]; [auto|congruence].
Qed.

(** The calls that read a map without a lock. *)
Definition scans (c : xcall) : bool := match c with QStart => true | _ => false end.
Definition looks_up (c : xcall) : bool := match c with QByString _ _ _ _ (Some _) _ _ _ _ _ => true | _ => false end.
Inductive quiet : bool -> bool -> xprog -> Prop :=   (* may look up, may scan *)
| qt_ret a b o : quiet a b (XRet o)
| qt_do a b p k : (forall o, quiet a b (k o)) -> quiet a b (XDo p k)
| qt_get b n k : (forall v, quiet true b (k v)) -> quiet true b (XGetD n k)
| qt_heap a b k : (forall v, quiet a b (k v)) -> quiet a b (XHeap k)
| qt_newd a b ip d k : quiet a b k -> quiet a b (XNewD ip d k)
| qt_newm a b mp m k : quiet a b k -> quiet a b (XNewM mp m k)
| qt_scan a x k : quiet a true k -> quiet a true (XScan x k)
| qt_mapped a b k : quiet a b k -> quiet a b (XMapped k).
Lemma qt_x_add a b mp m : quiet a b (x_add_metric mp m).
Proof. repeat constructor. Qed.
Lemma qt_with a b mp ip name vals t s u order : quiet a b (x_instance_with mp ip name vals t s u order).
Proof. constructor. intros hp. destruct (h_indoms hp !! ip); [|constructor]. destruct (NewPCPInstanceMetric _ _ _ _ _ _ _ _ _); [apply qt_x_add|constructor]. Qed.
Lemma qt_by_name a b ip name l k : quiet a b k -> quiet a b (x_by_name ip name l k).
Proof.
  intros H. constructor. intros o.
  assert (quiet a b (match new_indom name l [] with None => XRet RErr
           | Some d => XNewD ip d (XDo (g_add_indom ip d (GRet ROk) (GRet RErr)) (fun o => match o with ROk => k | _ => XRet o end)) end)) as K.
  { destruct (new_indom name l []) as [d|]; [|constructor]. constructor. constructor. intros [| | |]; try constructor. done. }
  destruct o; try exact K. constructor.
Qed.
Lemma qt_body c : quiet (looks_up c) (scans c) (x_body c).
Proof.
  destruct c as [n|n| | |c|ip name l|mp ip name iname [l|] val t s u order|]; cbn; try (repeat constructor; fail).
  - apply qt_by_name. constructor.
  - unfold x_instance. destruct val as [v|vals]; [constructor|]. constructor. intros o.
    pose proof (qt_by_name true false ip iname l _ (qt_with true false mp ip name vals t s u order)) as K. destruct o; try exact K.
    constructor. intros [ip1|]; [|constructor]. constructor. intros hp. destruct (h_indoms hp !! ip1); [|constructor]. destruct (match_instances _ _); [|constructor].
    constructor. intros [ip2|]; [|constructor]. apply qt_with.
  - unfold x_singleton. destruct (NewPCPSingletonMetric _ _ _ _ _ _); [apply qt_x_add|constructor].
Qed.
Lemma qt_step a b i p s p' s' : xnext i p s p' s' -> quiet a b p -> quiet a b p'.
Proof. intros N Q. destruct N; inversion Q; subst; auto; by constructor. Qed.
Definition qinv (m : xmach) : Prop := forall i t c p, xm_thr m !! i = Some t -> t_cur t = Some (c, p) -> quiet (looks_up c) (scans c) p.
Lemma qinv_run hp r css m : rtc xstep (xm_start hp r css) m -> qinv m.
Proof.
  intros R. assert (forall a b, rtc xstep a b -> qinv a -> qinv b) as K.
  { induction 1 as [|a b c St _ IH]; [done|]. intros I. apply IH. destruct St as [s ts i d c0 l Hi|s ts i d c0 p l p' s' Hi N|s ts i d c0 o l Hi]; intros j t c1 p1 Hj Hc; cbn in *;
    (destruct (decide (j = i)) as [->|Nj]; [rewrite list_lookup_insert in Hj by (by eapply lookup_lt_Some); injection Hj as <-; cbn in Hc|rewrite list_lookup_insert_ne in Hj by done; eapply I; eauto]).
    - injection Hc as <- <-. apply qt_body.
    - injection Hc as <- <-. eapply qt_step; [exact N|]. by eapply I.
    - discriminate. }
  eapply K; [exact R|]. intros i t c p Hi Hc. cbn in Hi. rewrite list_lookup_fmap in Hi. destruct (css !! i); [|discriminate]. injection Hi as <-. discriminate.
Qed.

(** For concrete executions: [xfollow] follows a list of goroutine numbers as long as the steps are determined. *)
Definition xnext1 (i : nat) (p : xprog) (s : xst) : option (xprog * xst) :=
  let '(hp, r, f) := s in
  match p with
  | XDo (GRet o) k => Some (k o, s)
  | XDo p k => '(p', r', f') ← gnext i p r f; Some (XDo p' k, (hp, r', f'))
  | XGetD n k => Some (k (r_indoms r !! n), s)
  | XHeap k => Some (k hp, s)
  | XNewD ip d k => Some (k, (mkHeap (<[ip := d]> (h_indoms hp)) (h_metrics hp), r, f))
  | XNewM mp m k => Some (k, (mkHeap (h_indoms hp) (<[mp := m]> (h_metrics hp)), r, f))
  | XScan x k => match x with TDom => Some (XScan TMet k, s) | TMet => Some (k, s) end
  | _ => None
  end.
Lemma xnext1_ok i p s p' s' : xnext1 i p s = Some (p', s') -> xnext i p s p' s'.
Proof.
  destruct s as [[hp r] f]. destruct p as [o|p k|n k|k|ip d k|mp m k|x k|k]; cbn; intros E; try discriminate; try (injection E as <- <-; constructor; fail).
  - destruct p; try (injection E as <- <-; constructor; fail); destruct (gnext _ _ r f) as [[[p1 r1] f1]|] eqn:G; cbn in E; try discriminate; injection E as <- <-; by constructor.
  - destruct x; injection E as <- <-; constructor.
Qed.
Definition xexec1 (i : nat) (m : xmach) : option xmach :=
  match xm_thr m !! i with
  | Some (mkThr d None (c :: l)) => Some (mkXM (xm_st m) (<[i := mkThr d (Some (c, x_body c)) l]> (xm_thr m)))
  | Some (mkThr d (Some (c, XRet o)) l) => Some (mkXM (xm_st m) (<[i := mkThr (d ++ [(c, o)]) None l]> (xm_thr m)))
  | Some (mkThr d (Some (c, p)) l) => '(p', s') ← xnext1 i p (xm_st m); Some (mkXM s' (<[i := mkThr d (Some (c, p')) l]> (xm_thr m)))
  | _ => None
  end.
Lemma xexec1_ok i m m' : xexec1 i m = Some m' -> xstep m m'.
Proof.
  unfold xexec1. destruct m as [s ts]. cbn. destruct (ts !! i) as [[d [[c p]|] l]|] eqn:E; [|destruct l; [discriminate|]; intros H; injection H as <-; by eapply xs_call|discriminate].
  destruct p; try (intros H; injection H as <-; by eapply xs_ret); (destruct (xnext1 _ _ _) as [[p' s']|] eqn:N; cbn; [|discriminate]; intros H; injection H as <-; eapply xs_step; [exact E|by apply xnext1_ok]).
Qed.
Fixpoint xfollow (l : list nat) (m : xmach) : option xmach := match l with [] => Some m | i :: l => m' ← xexec1 i m; xfollow l m' end.
Lemma xfollow_ok l : forall m m', xfollow l m = Some m' -> rtc xstep m m'.
Proof.
  induction l as [|i l IH]; intros m m'; cbn; [intros [= ->]; reflexivity|]. destruct (xexec1 i m) as [m1|] eqn:E; cbn; [|discriminate]. intros H. eapply rtc_l; [by eapply xexec1_ok|auto].
Qed.
Definition acc1 (m : xmach) (i : nat) : option (xcall * (rmap * bool)) :=
  match xm_thr m !! i with Some (mkThr d (Some (c, p)) l) => a ← x_access p; Some (c, a) | _ => None end.
Lemma acc1_ok m i c x wr : acc1 m i = Some (c, (x, wr)) -> accesses m i c x wr.
Proof.
  unfold acc1, accesses. destruct (xm_thr m !! i) as [[d [[c' p]|] l]|]; [|discriminate|discriminate]. destruct (x_access p) as [a|] eqn:E; cbn; [|discriminate].
  intros H. injection H as -> ->. eauto.
Qed.
Lemma follow_accesses l m i j ci ai cj aj : (m' ← xfollow l m; a ← acc1 m' i; b ← acc1 m' j; Some (a, b)) = Some ((ci, ai), (cj, aj)) ->
  exists m', rtc xstep m m' /\ accesses m' i ci ai.1 ai.2 /\ accesses m' j cj aj.1 aj.2.
Proof.
  destruct (xfollow l m) as [m'|] eqn:F; cbn; [|discriminate]. destruct (acc1 m' i) as [a|] eqn:A; cbn; [|discriminate]. destruct (acc1 m' j) as [b|] eqn:B; cbn; [|discriminate].
  intros H. injection H as -> ->. exists m'. split; [by eapply xfollow_ok|]. destruct ai, aj. by split; apply acc1_ok.
Qed.

(** A goroutine executes only the calls it was given. *)
Definition given (css : list (list xcall)) (m : xmach) : Prop := forall i d o l, xm_thr m !! i = Some (mkThr d o l) ->
  exists l0, css !! i = Some l0 /\ (forall c, c ∈ l -> c ∈ l0) /\ match o with Some (c, _) => c ∈ l0 | None => True end.
Lemma given_run hp r css m : rtc xstep (xm_start hp r css) m -> given css m.
Proof.
  intros R. assert (forall a b, rtc xstep a b -> given css a -> given css b) as K.
  { induction 1 as [|a b c St _ IH]; [done|]. intros I. apply IH. destruct St as [s ts i d c0 l Hi|s ts i d c0 p l p' s' Hi N|s ts i d c0 o l Hi]; intros j d1 o1 l1 Hj; cbn in *;
    (destruct (decide (j = i)) as [->|Nj]; [rewrite list_lookup_insert in Hj by (by eapply lookup_lt_Some); injection Hj as <- <- <-|rewrite list_lookup_insert_ne in Hj by done; eapply I; eauto]);
    destruct (I i _ _ _ Hi) as (l0 & G1 & G2 & G3); exists l0; (split; [done|]).
    - split; [|apply G2; left]. intros c1 H1. apply G2. by right.
    - done.
    - done. }
  eapply K; [exact R|]. intros i d o l Hi. cbn in Hi. rewrite list_lookup_fmap in Hi. destruct (css !! i) as [l0|]; [|discriminate]. injection Hi as <- <- <-. eauto.
Qed.
