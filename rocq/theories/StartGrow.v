(** Start while other goroutines register: /repo/client.go:195-210 calls Length (line 199),
    then start (line 207), then sets mapped (line 208). None of these holds the registry's
    locks, and AddMetric and AddInstanceDomain only look at mapped
    (/repo/registry.go:143, 197), so registrations may take effect in between.

    Simplification: registrations take effect between those three statements. A
    registration taking effect in the middle of Length or of start() is not modelled (there
    Go's unsynchronised map iteration of /repo/client.go:382, 464 may also be a fatal error). *)
From Verif Require Import Base BaseFacts Floats GoVal MetricType ByteWriter Hash Units Indom Metrics Registry Prog
  Client Mmvdump Ileave ProgProofs Exec Events StartEvents BufFacts Tiling StartGood StartLayout StartFinal StartDone
  View Sections StartView RegInv Update World OpRuns RegFacts WorldInv Sync StartLive FloatFacts ValueFacts MetricFacts SyncLive SyncView
  Crash Life.

(** ** Model *)
(** start() on a file of [n] bytes: /repo/client.go:212-274 with a writer of length [n]. *)
Definition sized_state (n : Z) (r : registry) (offs : gmap okey Z) : gst := mkGst (zeros n) (init_ch r) offs ∅ false.
Definition sized_run (n : Z) (hp : heap) (offs : gmap okey Z) (k : cfg) (s : gst) : Prop :=
  exists pl, plan_ok hp (k_reg k) pl /\ rtc (gstep n) (sized_state n (k_reg k) offs, start_prog k pl) (s, PRet) /\ g_panic s = false.
Definition sized_panics (n : Z) (hp : heap) (offs : gmap okey Z) (k : cfg) (s : gst) : Prop :=
  exists pl p, plan_ok hp (k_reg k) pl /\ rtc (gstep n) (sized_state n (k_reg k) offs, start_prog k pl) (s, p) /\ g_panic s = true.

(** The calls other goroutines make meanwhile: they create metrics and domains and register them. *)
Definition registers (c : call) : Prop :=
  match c with
  | CNewIndom _ | CNewMetric _ _ | CAddMetric _ _ | CAddIndom _ _ | CAddIndomByName _ _ _ _ | CAddByString _ _ _ _ _ _ _ _ _ _ => True
  | _ => False
  end.
Definition beside (w : world) (tr : list (world * call * outcome)) (w' : world) : Prop :=
  hist w tr w' /\ Forall (fun x => registers x.1.2) tr.

(** Start of client [cid]; [tr1], leading to [w1], happens between Length and start(), [tr2] between
    start() and the assignment to mapped. *)
Inductive start_race (w : world) (cid : nat) (gen pid : Z) (tr1 : list (world * call * outcome)) (w1 : world)
    (tr2 : list (world * call * outcome)) : outcome -> world -> Prop :=
| sr_ok c r r1 wr ino s w3 r3 : w_dead w = false -> w_clients w !! cid = Some c -> w_regs w !! cl_reg c = Some r ->
    beside w tr1 w1 -> w_regs w1 !! cl_reg c = Some r1 ->
    f_writers (w_files w1) !! wr = None -> f_inodes (w_files w1) !! ino = None ->
    sized_run (Length r) (w_heap w1) (w_offs w1) (start_cfg c r1 gen pid) s ->
    beside (set_regs (started w1 cid c r1 wr ino s) (w_regs w1)) tr2 w3 -> w_regs w3 !! cl_reg c = Some r3 ->
    start_race w cid gen pid tr1 w1 tr2 ROk (set_regs w3 (<[cl_reg c := set_mapped r3 true]> (w_regs w3)))
| sr_panic c r r1 ino s : w_dead w = false -> w_clients w !! cid = Some c -> w_regs w !! cl_reg c = Some r ->
    beside w tr1 w1 -> w_regs w1 !! cl_reg c = Some r1 -> f_inodes (w_files w1) !! ino = None ->
    sized_panics (Length r) (w_heap w1) (w_offs w1) (start_cfg c r1 gen pid) s -> tr2 = [] ->
    start_race w cid gen pid tr1 w1 tr2 RPanic
      (mkWorld (w_heap w1) (w_regs w1) (w_clients w1) (mkFiles (f_writers (w_files w1)) (<[ino := g_buf s]> (f_inodes (w_files w1))))
         (<[cl_loc c := ino]> (w_paths w1)) (w_offs w1) true).

(** ** Runs on a file that is too short *)
Section short.
  Context (L : Z).

  (** Some goroutine still has to make a checked write beyond the end of the file. *)
  Fixpoint doomed (p : prog) : Prop :=
    match p with
    | PRet => False
    | PWrite m off d k => (m = true /\ L < off + zlen d) \/ doomed k
    | PTake _ k | PGetOff _ k => forall v, doomed (k v)
    | PPut _ _ k | PSetOff _ _ k | PSetUpd _ _ k => doomed k
    | PGo c k => doomed c \/ doomed k
    | PWg _ kids b k => (fix go l := match l with [] => False | p :: l => doomed p \/ go l end) kids \/ doomed b \/ doomed k
    end.
  (** Unchecked writes are inside the file, unless another write will fail. *)
  Fixpoint covered (p : prog) : Prop :=
    doomed p \/
    match p with
    | PRet => True
    | PWrite m off d k => (m = false -> off + zlen d <= L) /\ covered k
    | PTake _ k | PGetOff _ k => forall v, covered (k v)
    | PPut _ _ k | PSetOff _ _ k | PSetUpd _ _ k => covered k
    | PGo c k => covered c /\ covered k
    | PWg _ kids b k => (fix go l := match l with [] => True | p :: l => covered p /\ go l end) kids /\ covered b /\ covered k
    end.

  Lemma doomed_wg n kids b k : doomed (PWg n kids b k) <-> Exists doomed kids \/ doomed b \/ doomed k.
  Proof.
    cbn. set (go := fix go l := match l with [] => False | p :: l => doomed p \/ go l end).
    assert (forall l, go l <-> Exists doomed l) as H.
    { induction l as [|p l IH]; cbn; [by rewrite Exists_nil|]. fold go. by rewrite Exists_cons, IH. }
    by rewrite H.
  Qed.
  Lemma covered_wg n kids b k : covered (PWg n kids b k) <-> doomed (PWg n kids b k) \/ Forall covered kids /\ covered b /\ covered k.
  Proof.
    cbn [covered]. set (go := fix go l := match l with [] => True | p :: l => covered p /\ go l end).
    assert (forall l, go l <-> Forall covered l) as H.
    { induction l as [|p l IH]; cbn; [by rewrite Forall_nil|]. fold go. by rewrite Forall_cons, IH. }
    by rewrite H.
  Qed.

  Lemma doomed_step p l p' : pstep L p l p' -> doomed p -> l = Some LPanic \/ doomed p'.
  Proof.
    induction 1 as [m off data k l p E|c k v|c v k|i v k|i v k|i o k|n kids c b k|n kids b l b' k H IH|n l1 p l2 l p' b k H IH|n l1 l2 b k|k|kids k H1 H2]; intros D.
    - unfold write_step in E. cbn [doomed] in D. destruct (L <? off + zlen data) eqn:B.
      + destruct m; injection E as <- <-; [by left|]. right. destruct D as [[? _]|D]; [discriminate|exact D].
      + apply Z.ltb_ge in B. destruct D as [[_ D]|D]; [lia|]. destruct data as [|b data]; [injection E as <- <-; by right|].
        destruct (off <? 0); injection E as <- <-; [by left|]. right. cbn. by right.
    - right. apply D.
    - right. exact D.
    - right. exact D.
    - right. apply D.
    - right. exact D.
    - right. apply doomed_wg. apply doomed_wg in D. cbn in D. rewrite Exists_app, Exists_cons. tauto.
    - apply doomed_wg in D as [D|[D|D]]; [right; apply doomed_wg; auto| |right; apply doomed_wg; auto]. destruct (IH D); [by left|right; apply doomed_wg; auto].
    - apply doomed_wg in D as [D|[D|D]]; [|right; apply doomed_wg; auto|right; apply doomed_wg; auto].
      rewrite Exists_app, Exists_cons in D. destruct D as [D|[D|D]].
      + right. apply doomed_wg. left. rewrite Exists_app. auto.
      + destruct (IH D); [by left|]. right. apply doomed_wg. left. rewrite Exists_app, Exists_cons. auto.
      + right. apply doomed_wg. left. rewrite Exists_app, Exists_cons. auto.
    - apply doomed_wg in D as [D|D]; [|right; apply doomed_wg; auto]. rewrite Exists_app, Exists_cons in D. cbn in D. right. apply doomed_wg. left. rewrite Exists_app. tauto.
    - apply doomed_wg in D as [D|[D|D]]; [by rewrite Exists_nil in D|contradiction|]. by right.
    - apply doomed_wg in D. right. apply doomed_wg. cbn in *. tauto.
  Qed.

  Lemma doomed_covered p : doomed p -> covered p.
  Proof. destruct p; intros D; [contradiction|..]; left; exact D. Qed.

  (** A step that neither panics nor skips a write is a step on a longer file. *)
  Lemma covered_step M p l p' : L <= M -> pstep L p l p' -> covered p -> l = Some LPanic \/ doomed p' \/
    covered p' /\ pstep M p l p' /\ forall o b, l = Some (LByte o b) -> 0 <= o < L.
  Proof.
    intros HM. induction 1 as [m off data k l p E|c k v|c v k|i v k|i v k|i o k|n kids c b k|n kids b l b' k H IH|n l1 p l2 l p' b k H IH|n l1 l2 b k|k|kids k H1 H2]; intros C.
    - assert (pstep L (PWrite m off data k) l p) as St by (by constructor).
      destruct C as [C|[C1 C2]]; [destruct (doomed_step _ _ _ St C); auto|]. unfold write_step in E.
      destruct (L <? off + zlen data) eqn:B.
      + apply Z.ltb_lt in B. destruct m; [injection E as <- <-; by left|]. specialize (C1 eq_refl). lia.
      + apply Z.ltb_ge in B. destruct data as [|b data].
        * injection E as <- <-. right. right. split; [exact C2|]. split; [|discriminate]. constructor. unfold write_step. by replace (M <? off + zlen []) with false by (symmetry; apply Z.ltb_ge; lia).
        * destruct (off <? 0) eqn:B0; [injection E as <- <-; by left|]. injection E as <- <-. apply Z.ltb_ge in B0. rewrite zlen_cons in *. right. right. split; [|split].
          -- right. split; [intros Em; specialize (C1 Em); lia|exact C2].
          -- constructor. unfold write_step. rewrite zlen_cons. replace (M <? off + (1 + zlen data)) with false by (symmetry; apply Z.ltb_ge; lia). by replace (off <? 0) with false by (symmetry; apply Z.ltb_ge; lia).
          -- intros o b' [= <- <-]. pose proof (zlen_nonneg data). lia.
    - destruct C as [C|C]; [right; left; apply C|]. right. right. split; [apply C|]. split; [constructor|discriminate].
    - destruct C as [C|C]; [right; left; apply C|]. right. right. split; [apply C|]. split; [constructor|discriminate].
    - destruct C as [C|C]; [right; left; apply C|]. right. right. split; [apply C|]. split; [constructor|discriminate].
    - destruct C as [C|C]; [right; left; apply C|]. right. right. split; [apply C|]. split; [constructor|discriminate].
    - destruct C as [C|C]; [right; left; apply C|]. right. right. split; [apply C|]. split; [constructor|discriminate].
    - apply covered_wg in C as [C|(C1 & C2 & C3)]; [destruct (doomed_step _ _ _ (ps_go L n kids c b k) C); auto|].
      cbn in C2. destruct C2 as [C2|[C2 C4]].
      { right. left. apply doomed_wg. rewrite Exists_app, Exists_cons. tauto. }
      right. right. split; [|split; [constructor|discriminate]]. apply covered_wg. right. split; [|auto]. apply Forall_app. auto.
    - assert (pstep L (PWg n kids b k) l (PWg n kids b' k)) as St by (by constructor).
      apply covered_wg in C as [C|(C1 & C2 & C3)]; [destruct (doomed_step _ _ _ St C); auto|].
      destruct (IH C2) as [?|[D|(C4 & S4 & B4)]]; [by left|right; left; apply doomed_wg; auto|]. right. right. split; [apply covered_wg; auto|]. split; [by constructor|exact B4].
    - assert (pstep L (PWg n (l1 ++ p :: l2) b k) l (PWg n (l1 ++ p' :: l2) b k)) as St by (by constructor).
      apply covered_wg in C as [C|(C1 & C2 & C3)]; [destruct (doomed_step _ _ _ St C); auto|]. apply Forall_app in C1 as [F1 F2]. apply Forall_cons in F2 as [F2 F3].
      destruct (IH F2) as [?|[D|(C4 & S4 & B4)]]; [by left| |].
      { right. left. apply doomed_wg. left. rewrite Exists_app, Exists_cons. auto. }
      right. right. split; [|split; [by constructor|exact B4]]. apply covered_wg. right. split; [|auto]. apply Forall_app. split; [auto|]. by constructor.
    - apply covered_wg in C as [C|(C1 & C2 & C3)]; [destruct (doomed_step _ _ _ (ps_done L n l1 l2 b k) C); auto|].
      destruct (n - 1 <? 0) eqn:B; [by left|]. right. right. apply Forall_app in C1 as [F1 F2]. apply Forall_cons in F2 as [_ F3].
      split; [apply covered_wg; right; split; [apply Forall_app|]; auto|]. split; [|discriminate]. pose proof (ps_done M n l1 l2 b k) as St. by rewrite B in St.
    - apply covered_wg in C as [C|(C1 & C2 & C3)]; [destruct (doomed_step _ _ _ (ps_wait L k) C); auto|]. right. right. split; [exact C3|]. split; [constructor|discriminate].
    - apply covered_wg in C as [C|(C1 & C2 & C3)]; [destruct (doomed_step _ _ _ (ps_wait_early L kids k H1 H2) C); auto|]. right. right. split; [|split; [by constructor|discriminate]].
      apply covered_wg. right. split_and!; [exact C1|exact C3|]. by right.
  Qed.

  (** The short file is a prefix of the long one. *)
  Definition prefix_of (s t : gst) : Prop :=
    g_buf s = take (Z.to_nat L) (g_buf t) /\ g_ch s = g_ch t /\ g_off s = g_off t /\ g_upd s = g_upd t /\ g_panic s = g_panic t /\ L <= zlen (g_buf t).

  Lemma prefix_act s t l s' : prefix_of s t -> act s l = Some s' -> (forall o b, l = Some (LByte o b) -> 0 <= o < L) ->
    exists t', act t l = Some t' /\ prefix_of s' t'.
  Proof.
    destruct s as [b1 c1 o1 u1 p1], t as [b2 c2 o2 u2 p2]. unfold prefix_of. cbn. intros (-> & -> & -> & -> & -> & HL) A B.
    destruct l as [[o b|c v|c v|i v|i v|i o|]|]; cbn in *.
    - injection A as <-. eexists. split; [reflexivity|]. cbn. split_and!; auto.
      + specialize (B o b eq_refl). unfold do_store. cbn [fst snd]. unfold bset, zlen in *. rewrite take_length.
        replace ((o <? 0) || (Z.of_nat (Z.to_nat L `min` length b2) <=? o)) with false by lia. replace ((o <? 0) || (Z.of_nat (length b2) <=? o)) with false by lia.
        symmetry. apply take_insert_lt. lia.
      + by rewrite do_store_length.
    - destruct (c2 c) as [| |v']; try discriminate. destruct (v =? v'); [|discriminate]. injection A as <-. eexists. split; [reflexivity|]. cbn. auto 10.
    - destruct (c2 c) as [| |v']; try discriminate. injection A as <-. eexists. split; [reflexivity|]. cbn. auto 10.
    - injection A as <-. eexists. split; [reflexivity|]. cbn. auto 10.
    - destruct (v =? _); [|discriminate]. injection A as <-. eexists. split; [reflexivity|]. cbn. auto 10.
    - injection A as <-. eexists. split; [reflexivity|]. cbn. auto 10.
    - injection A as <-. eexists. split; [reflexivity|]. cbn. auto 10.
    - injection A as <-. eexists. split; [reflexivity|]. cbn. auto 10.
  Qed.

  Lemma doomed_ret : ~ doomed PRet.
  Proof. intros []. Qed.
  Lemma dead_stuck x y : rtc (gstep L) x y -> g_panic x.1 = true -> y = x.
  Proof. intros R E. destruct R as [x|x y z (Hp & _) R]; [reflexivity|congruence]. Qed.
  Lemma doomed_run x y : rtc (gstep L) x y -> doomed x.2 -> g_panic y.1 = true \/ doomed y.2.
  Proof.
    induction 1 as [x|x y z (Hp & l & St & A) R IH]; intros D; [by right|]. destruct (doomed_step _ _ _ St D) as [->|D']; [|by apply IH].
    left. cbn in A. apply (inj Some) in A. assert (g_panic y.1 = true) as Ey by (by rewrite <- A). by rewrite (dead_stuck _ _ R Ey).
  Qed.

  (** A completed run on the short file is a run on any longer one. *)
  Lemma short_run M x y : L <= M -> rtc (gstep L) x y -> y.2 = PRet -> g_panic y.1 = false -> forall t, covered x.2 -> prefix_of x.1 t ->
    exists t', rtc (gstep M) (t, x.2) (t', PRet) /\ prefix_of y.1 t'.
  Proof.
    intros HM R. induction R as [x|x y z St R IH]; intros E N t C P.
    - exists t. rewrite E. split; [apply rtc_refl|exact P].
    - pose proof (doomed_run y z R) as DR. pose proof St as (Hp & l & S1 & A). destruct (covered_step M _ _ _ HM S1 C) as [->|[D|(C' & S2 & B)]].
      + exfalso. cbn in A. apply (inj Some) in A. assert (g_panic y.1 = true) as Ey by (by rewrite <- A). rewrite (dead_stuck _ _ R Ey) in N. congruence.
      + exfalso. destruct (DR D) as [K|K]; [congruence|]. rewrite E in K. by apply doomed_ret.
      + destruct (prefix_act _ _ _ _ P A B) as (t1 & A1 & P1). destruct (IH E N t1 C' P1) as (t2 & R2 & P2). exists t2. split; [|exact P2].
        eapply rtc_l; [|exact R2]. split; cbn; [destruct P as (_ & _ & _ & _ & Ep & _); congruence|]. exists l. split; [exact S2|exact A1].
  Qed.

  (** ** start() covers its unchecked writes *)
  Lemma covered_gos l k : Forall covered l -> covered k -> covered (gos l k).
  Proof. induction 1 as [|p l Hp _ IH]; intros Hk; cbn; [exact Hk|]. right. auto. Qed.
  Lemma covered_opt s k : (forall v, covered (k v)) -> covered (opt_string s k).
  Proof. intros H. unfold opt_string. destruct (nonempty s); [|apply H]. right. intros v. right. right. split; [discriminate|apply H]. Qed.
  Lemma covered_tocs l : forall pos, Forall covered (toc_progs pos l).
  Proof. induction l as [|[[i c] o] l IH]; intros pos; cbn; constructor; [|apply IH]. cbn. repeat (right; split; [discriminate|]). by right. Qed.
  Lemma covered_str off s k : covered k -> covered (w_str off s k).
  Proof. intros H. right. split; [discriminate|exact H]. Qed.
  Lemma covered_i32 off v k : covered k -> covered (w_i32 off v k).
  Proof. intros H. right. split; [discriminate|exact H]. Qed.
  Lemma covered_i64 off v k : covered k -> covered (w_i64 off v k).
  Proof. intros H. right. split; [discriminate|exact H]. Qed.
  Lemma covered_ret : covered PRet.
  Proof. by right. Qed.
  Lemma covered_alloc c n k : (forall v, covered (k v)) -> covered (alloc c n k).
  Proof. intros H. right. intros v. right. apply H. Qed.
  Ltac cov := repeat first [apply covered_ret|apply covered_str|apply covered_i32|apply covered_i64|apply covered_opt; intros ?|apply covered_alloc; intros ?].

  Lemma covered_insts v2 ip io ilen l : forall ioff, Forall covered (instance_progs v2 ip io ilen ioff l).
  Proof.
    induction l as [|[n id] l IH]; intros ioff; cbn; constructor; [|apply IH]. unfold writeInstance. right. cov. destruct v2; cov.
  Qed.
  Lemma covered_dom r ip d insts : covered (writeInstanceDomain r ip d insts).
  Proof.
    unfold writeInstanceDomain. cov. apply covered_wg. right. split; [constructor|]. split; [|apply covered_ret]. cov.
    apply covered_gos; [apply covered_insts|]. cov.
  Qed.
  Lemma covered_desc v2 d iid off : covered (writeMetricDesc v2 d iid off).
  Proof. unfold writeMetricDesc. destruct v2; right; cov. Qed.
  Lemma covered_value t v off key : val_ok t v -> off + 32 <= L -> covered (writeValue t v off key).
  Proof.
    intros Hv Ho. unfold writeValue. destruct v as [| | | | | | | |s|]; cbn [val_ok] in Hv.
    all: try (destruct Hv as [Ht (d & Ed & Hd)]; replace (t =? StringType) with false by (symmetry; by apply Z.eqb_neq); unfold update_prog; rewrite Ed; right; split; [lia|]; right; apply covered_ret).
    destruct Hv as [-> Hl]. rewrite Z.eqb_refl. apply covered_i64, covered_alloc. intros v. apply covered_i64. unfold update_prog. destruct (Z.le_gt_cases (v + StringLength) L) as [B|B].
    - right. split; [discriminate|]. right. split; [lia|]. right. apply covered_ret.
    - left. left. split; [reflexivity|]. rewrite zlen_zeros; unfold StringLength in *; lia.
  Qed.
  Lemma le8 v : zlen (le_enc 8 v) = 8.
  Proof. apply (zlen_le_enc 8). Qed.
  Lemma covered_single v2 mp d v : val_ok (md_type d) v -> covered (writeSingletonMetric v2 mp d v).
  Proof.
    intros Hv. unfold writeSingletonMetric. apply covered_wg. right. split; [constructor|]. split; [|apply covered_ret]. right. intros doff. right. split; [apply covered_desc|].
    cov. destruct (Z.le_gt_cases (v0 + 32) L) as [B|B].
    - right. split; [by apply covered_value|]. cov.
    - left. right. right. left. split; [reflexivity|]. rewrite le8. unfold MaxDataValueSize. lia.
  Qed.
  Lemma covered_vals t mp ip doff vals : Forall (fun x => val_ok t x.2) vals -> covered (instance_values t mp ip doff vals).
  Proof.
    induction 1 as [|[n v] vals Hv _ IH]; cbn [instance_values]; cov. destruct (Z.le_gt_cases (v0 + 32) L) as [B|B].
    - right. split; [by apply covered_value|]. cov. right. intros io. cov. exact IH.
    - left. right. right. intros io. left. split; [reflexivity|]. rewrite le8. unfold MaxDataValueSize. lia.
  Qed.
  Lemma covered_start c pl : Forall (met_sizes (r_version2 (k_reg c))) (pl_mets pl) -> covered (start_prog c pl).
  Proof.
    intros Hm. unfold start_prog. apply covered_wg. right. split; [constructor|]. split; [|cov].
    right. split; [unfold writeHeaderBlock; cov|]. right. split.
    { unfold writeTocBlock. apply covered_wg. right. split; [constructor|]. split; [apply covered_gos; [apply covered_tocs|]|]; apply covered_ret. }
    right. split; [|apply covered_ret]. unfold writeInstanceDomains. apply covered_wg. right. split; [constructor|]. split.
    { apply covered_gos; [|apply covered_ret]. apply Forall_fmap, Forall_forall. intros x _. apply covered_dom. }
    unfold writeMetrics. apply covered_wg. right. split; [constructor|]. split; [|apply covered_ret]. apply covered_gos; [|apply covered_ret].
    apply Forall_fmap. eapply Forall_impl; [exact Hm|]. intros [mp d v|mp d ip dom vals] (_ & _ & _ & H); cbn [writeMetric].
    - by apply covered_single.
    - unfold writeInstanceMetric. apply covered_wg. right. split; [constructor|]. split; [|apply covered_ret]. right. intros doff. right. split; [apply covered_desc|]. by apply covered_vals.
  Qed.
End short.

(** ** A completed start() on a shorter file writes a prefix of the complete file *)
Lemma zeros_take n m : 0 <= n <= m -> zeros n = take (Z.to_nat n) (zeros m).
Proof. intros H. unfold zeros. rewrite take_replicate. f_equal. lia. Qed.
Lemma short_start n hp offs k s : heap_ok hp -> reg_ok hp (k_reg k) -> startable hp (k_reg k) -> 0 <= n <= Length (k_reg k) -> sized_run n hp offs k s ->
  exists s', start_run hp offs k s' /\ prefix_of n s s'.
Proof.
  intros Hh Hr Hs Hn (pl & Hp & R & N). pose proof (plan_wf_ok _ _ _ Hh Hr Hp Hs) as W.
  destruct (short_run n (Length (k_reg k)) _ _ (proj2 Hn) R eq_refl N (start_state (k_reg k) offs ∅)) as (t & Rt & Pt).
  - apply covered_start, W.
  - unfold prefix_of, sized_state, start_state. cbn. split_and!; auto; [by apply zeros_take|]. rewrite zlen_zeros; lia.
  - exists t. split; [|exact Pt]. exists pl. split; [exact Hp|]. split; [exact Rt|]. destruct Pt as (_ & _ & _ & _ & E & _). cbn in *. congruence.
Qed.
