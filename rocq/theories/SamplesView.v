(** What the file of a finished example program shows. *)
From Verif Require Import Base BaseFacts Floats GoVal MetricType ByteWriter Hash Units Indom Metrics Registry Prog
  Client Mmvdump View RegInv World OpRuns RegFacts WorldInv Sync FloatFacts ValueFacts MetricFacts VectorFacts SyncView Life Parse Example Samples SamplesFacts SamplesRun SamplesRt.

Lemma file_shows_veq w loc client ver sec gen pid V W : veq V W -> file_shows w loc client ver sec gen pid V -> file_shows w loc client ver sec gen pid W.
Proof. intros HV (ino & buf & d & A & B & C & D & E). exists ino, buf, d. split_and!; auto. by eapply shows_veq. Qed.

(** The program runs to its end and leaves the file showing [V]; stopping the client then removes the file if asked to and leaves it alone otherwise. *)
Definition publishes (loc client : gostring) (ver sec gen pid : Z) (prog : list gstmt) (V : view) : Prop :=
  surely w_init prog (fun w => file_shows w loc client ver sec gen pid V) /\
  forall erase, surely w_init (prog ++ [must_stop erase])
    (fun w => if erase then w_paths w !! loc = None else file_shows w loc client ver sec gen pid V).

Lemma runs_publish loc client ver sec gen pid prog V r (P : world -> Prop) :
  surely w_init prog (fun w => running w loc (hash client PCPClusterIDBitLength) r gen pid /\ P w) ->
  (forall w, running w loc (hash client PCPClusterIDBitLength) r gen pid -> P w -> file_shows w loc client ver sec gen pid V) ->
  publishes loc client ver sec gen pid prog V.
Proof.
  intros H K. split.
  - eapply surely_mono; [exact H|]. intros w [A B]. by apply K.
  - intros erase. eapply surely_app; [exact H|]. intros w [RU HP]. pose proof (K _ RU HP) as (ino & buf & d & A & B & C & D & E).
    eapply surely_mono; [exact (s_stop _ _ _ _ _ _ erase RU)|]. intros w' (_ & _ & Hp & Hi & _). destruct erase; [exact Hp|].
    exists ino, buf, d. rewrite Hp, Hi. auto.
Qed.

Lemma surely_suffix w s1 s2 w1 (Q P : world -> Prop) : surely w (s1 ++ s2) Q -> exec w s1 true w1 -> surely w1 s2 P -> surely w1 s2 Q.
Proof. intros [_ H] E [E2 _]. split; [exact E2|]. intros b w' X. apply (H b w'). by eapply exec_app_ok. Qed.

(** ** Updates after Stop *)
(** No run of [ss] reaches its end, and every run ends in a memory fault. *)
Definition faults (w : world) (ss : list gstmt) : Prop :=
  (exists w', exec w ss false w') /\ forall b w', exec w ss b w' -> b = false /\ w_dead w' = true.
Lemma faults_app w s1 s2 (Q : world -> Prop) : surely w s1 Q -> (forall w1, Q w1 -> faults w1 s2) -> faults w (s1 ++ s2).
Proof.
  intros [[w1 E1] H1] H2. split.
  - destruct (H1 _ _ E1) as [_ q]. destruct (H2 _ q) as [[w2 E2] _]. exists w2. by eapply exec_app_ok.
  - intros b w' E. apply exec_app in E as [(w2 & A & B)|[-> A]].
    + destruct (H1 _ _ A) as [_ q]. destruct (H2 _ q) as [_ F]. by apply F.
    + destruct (H1 _ _ A). discriminate.
Qed.
(** The cells of the metric at [mp] go through writers that are unmapped. *)
Definition halted (w : world) (mp ip : nat) (d : indom) (m : metric) : Prop :=
  w_dead w = false /\ h_metrics (w_heap w) !! mp = Some m /\ m_kind m = MInstance /\ m_indom m = Some ip /\ h_indoms (w_heap w) !! ip = Some d /\
  forall n c, cell_at m n = Some c -> exists cl x, c_upd c = Some cl /\ f_writers (w_files w) !! cl_writer cl = Some x /\ wr_live x = false.
Section halted.
  Context (w : world) (mp ip : nat) (d : indom) (m : metric) (H : halted w mp ip d m) (v x y : goval) (i : gostring).
  Context (Hi : has_instance d i = true) (Hv : wf_goval v) (Hc : IsCompatible (md_type (m_desc m)) v = true) (Hx : resolve (md_type (m_desc m)) v = x) (Hy : val_at m (Some i) = Some y).
  Lemma halted_set : must_m <$> run_op (w_files w) (w_heap w) m (OISet v i) = Some (if go_eqb x y then ROk else RFault, w_files w, m).
  Proof using All.
    destruct H as (_ & Hm & Hk & Him & Hd & Hw). unfold val_at in Hy. destruct (cell_at m (Some i)) as [c|] eqn:Ec; [|discriminate]. injection Hy as Hy'.
    destruct (Hw _ _ Ec) as (cl & wr & H1 & H2 & H3). unfold run_op, with_dom. rewrite Hk. unfold m_indom in Him. destruct (m_body m) as [|ip' cells] eqn:Eb; [discriminate|]. injection Him as ->.
    rewrite Hd. cbn. unfold m_set_instance. rewrite Eb, Hc, Hi. unfold cell_at in Ec. rewrite Eb in Ec. rewrite Ec, Hx, (store_dead _ _ _ _ _ H1 H2 H3), Hy'.
    assert (with_body m (BInst ip (<[i:=c]> cells)) = m) as Hid by (rewrite insert_id by exact Ec; destruct m; cbn in *; by subst). destruct (go_eqb x y); rewrite Hid; reflexivity.
  Qed.
  Lemma halted_same ss (Q : world -> Prop) : go_eqb x y = true -> surely w ss Q -> surely w (set_to mp v i :: ss) Q.
  Proof using All.
    intros He HQ. pose proof halted_set as E. rewrite He in E. destruct H as (Hd & Hm & _).
    assert (mkWorld (mkHeap (h_indoms (w_heap w)) (<[mp := m]> (h_metrics (w_heap w)))) (w_regs w) (w_clients w) (w_files w) (w_paths w) (w_offs w) (is_fault ROk) = w) as Hw.
    { rewrite insert_id by exact Hm. destruct w as [[? ?] ? ? ? ? ? ?]. cbn in *. by subst. }
    eapply surely_call; [reflexivity| |].
    - exists w. rewrite <- Hw at 2. eapply ws_update; [exact Hd|exact Hm|exact Hv|exact E].
    - intros o w2 S2. inversion S2 as [| | | | | | | | | | | | | | |w0 mp0 op0 mst0 m0 o0 fs0 m0' E1 E2 E3 E4]; subst. assert (m0 = m) as -> by congruence. rewrite E in E4. injection E4 as <- <- <-.
      split; [reflexivity|]. by rewrite Hw.
  Qed.
  Lemma halted_changed ss : go_eqb x y = false -> faults w (set_to mp v i :: ss).
  Proof using All.
    intros He. pose proof halted_set as E. rewrite He in E. destruct H as (Hd & Hm & _). split.
    - eexists. eapply ex_call_err; [reflexivity| |]; [eapply ws_update; [exact Hd|exact Hm|exact Hv|exact E]|discriminate].
    - intros b w' X. inversion X as [| | | | |w0 f0 cl0 w10 ss0 b0 w0' F1 F2 F3|w0 f0 cl0 o0 w10 ss0 F1 F2 F3|w0 f0 ss0 F1]; subst.
      + injection F1 as <-. inversion F2 as [| | | | | | | | | | | | | | |w0 mp0 op0 mst0 m0 o0 fs0 m0' E1 E2 E3 E4]; subst. assert (m0 = m) as -> by congruence. rewrite E in E4. discriminate.
      + injection F1 as <-. inversion F2 as [| | | | | | | | | | | | | | |w0 mp0 op0 mst0 m0 o1 fs0 m0' E1 E2 E3 E4]; subst. assert (m0 = m) as -> by congruence. rewrite E in E4. injection E4 as <- <- <-. auto.
      + discriminate.
  Qed.
End halted.

(** ** runtime: main stops the client while the goroutine goes on *)
Section rt_stop.
  Context (loc : gostring) (gen pid : Z) (w w1 : world) (f h : gostring -> Z) (I : rt_inv loc gen pid f h w).
  Context (O1 : okw w1) (Hh : w_heap w1 = w_heap w).
  Context (HD : forall mp m n c, registered rt_r mp -> h_metrics (w_heap w) !! mp = Some m -> cell_at m n = Some c ->
      exists cl x, c_upd c = Some cl /\ f_writers (w_files w1) !! cl_writer cl = Some x /\ wr_live x = false).
  Lemma rt_halted1 : exists m, halted w1 1 1 cp_d m /\ m_desc m = m_desc cp_m /\ forall i, i ∈ cpu_names -> val_at m (Some i) = Some (VInt64 (f i)).
  Proof using All.
    destruct I as (_ & D1 & D2 & (g1 & (m & Hm & A & B & C & E) & G) & _). exists m. split_and!; [|exact A|intros i Hi; rewrite E; by apply G].
    unfold halted. rewrite Hh. split_and!; auto; [apply O1|]. intros n c Hc. eapply HD; [|exact Hm|exact Hc]. apply reg1. vm_compute. reflexivity.
  Qed.
  Lemma rt_halted2 : exists m, halted w1 2 2 me_d m /\ m_desc m = m_desc me_m /\ forall i, i ∈ mem_names -> val_at m (Some i) = Some (VUint64 (h i)).
  Proof using All.
    destruct I as (_ & D1 & D2 & _ & (g1 & (m & Hm & A & B & C & E) & G)). exists m. split_and!; [|exact A|intros i Hi; rewrite E; by apply G].
    unfold halted. rewrite Hh. split_and!; auto; [apply O1|]. intros n c Hc. eapply HD; [|exact Hm|exact Hc]. exists (str "mem"). vm_compute. reflexivity.
  Qed.
  Lemma cpu_same v z i ss (Q : world -> Prop) : i ∈ cpu_names -> wf_goval v -> IsCompatible Int64Type v = true -> resolve Int64Type v = VInt64 z -> z = f i -> surely w1 ss Q -> surely w1 (set_to 1 v i :: ss) Q.
  Proof using All.
    intros Hi Hv Hc Hr -> HQ. destruct rt_halted1 as (m & HM & Ed & Hval). eapply (halted_same _ _ _ _ _ HM v _ _ i); [by apply cp_has|exact Hv|by rewrite Ed|by rewrite Ed; exact Hr|by apply Hval|apply Z.eqb_refl|exact HQ].
  Qed.
  Lemma cpu_changed v z i ss : i ∈ cpu_names -> wf_goval v -> IsCompatible Int64Type v = true -> resolve Int64Type v = VInt64 z -> z <> f i -> faults w1 (set_to 1 v i :: ss).
  Proof using All.
    intros Hi Hv Hc Hr Hne. destruct rt_halted1 as (m & HM & Ed & Hval). eapply (halted_changed _ _ _ _ _ HM v _ _ i); [by apply cp_has|exact Hv|by rewrite Ed|by rewrite Ed; exact Hr|by apply Hval|by apply Z.eqb_neq].
  Qed.
End rt_stop.
Lemma upd_mem i : i ∈ mem_updated -> i ∈ mem_names.
Proof. intros H. apply me_upd. by right. Qed.

(** ** A stop anywhere in a round *)
Section rt_mid.
  Context (loc : gostring) (gen pid : Z).
  (** An update: of cpu or of mem, the instance, the figure. *)
  Definition fig : Type := bool * gostring * Z.
  Definition st (u : fig) : gstmt := let '(b, i, z) := u in if b : bool then set_to 1 (if decide (i = str "Goroutines") then VInt z else VInt64 z) i else set_to 2 (VUint64 z) i.
  Definition fig_ok (u : fig) : Prop := let '(b, i, z) := u in if b : bool then i ∈ cpu_names /\ in_signed 64 z else i ∈ mem_names /\ in_unsigned 64 z.
  Definition now (f h : gostring -> Z) (b : bool) : gostring -> Z := if b then f else h.
  Definition put (g : bool -> gostring -> Z) (u : fig) : bool -> gostring -> Z := fun b j => if decide ((b, j) = u.1) then u.2 else g b j.
  Definition inv (g : bool -> gostring -> Z) : world -> Prop := rt_inv loc gen pid (g true) (g false).
  Lemma st_cpu i z : let v := if decide (i = str "Goroutines") then VInt z else VInt64 z in in_signed 64 z -> wf_goval v /\ (forall s, v = VStr s -> zlen s <= 256) /\ IsCompatible Int64Type v = true /\ resolve Int64Type v = VInt64 z.
  Proof using Type. intros v H. unfold v. destruct (decide _); split_and!; auto; discriminate. Qed.
  Lemma figs_run l : Forall fig_ok l -> forall w g, inv g w -> surely w (map st l) (inv (foldl put g l)).
  Proof using Type.
    induction 1 as [|[[b i] z] l Hu Hl IH]; intros w g I; [by apply surely_nil|]. cbn [map foldl]. destruct b; destruct Hu as [Hi Hz]; cbn [st].
    - destruct (st_cpu i z Hz) as (A & B & C & D). eapply rt_cpu; [exact I|exact Hi|exact A|exact B|exact C|exact D|]. intros w1 I1. apply IH. revert I1. apply rt_inv_ext.
      + intros j _. unfold put. cbn. destruct (decide (j = i)) as [->|N]; [by rewrite decide_True|]. rewrite decide_False; [done|congruence].
      + intros j _. unfold put. cbn. rewrite decide_False; [done|congruence].
    - eapply rt_mem; [exact I|exact Hi|exact Hz|]. intros w1 I1. apply IH. revert I1. apply rt_inv_ext.
      + intros j _. unfold put. cbn. rewrite decide_False; [done|congruence].
      + intros j _. unfold put. cbn. destruct (decide (j = i)) as [->|N]; [by rewrite decide_True|]. rewrite decide_False; [done|congruence].
  Qed.
  Definition unchanged (g : bool -> gostring -> Z) (u : fig) : Prop := g u.1.1 u.1.2 = u.2.
  Section halt.
    Context (w w1 : world) (g : bool -> gostring -> Z) (I : inv g w) (O1 : okw w1) (Hh : w_heap w1 = w_heap w).
    Context (HD : forall mp m n c, registered rt_r mp -> h_metrics (w_heap w) !! mp = Some m -> cell_at m n = Some c ->
      exists cl x, c_upd c = Some cl /\ f_writers (w_files w1) !! cl_writer cl = Some x /\ wr_live x = false).
    Lemma fig_same u ss (Q : world -> Prop) : fig_ok u -> unchanged g u -> surely w1 ss Q -> surely w1 (st u :: ss) Q.
    Proof using All.
      destruct u as [[b i] z]. intros Hu Hs HQ. unfold unchanged in Hs. cbn in Hs. destruct b; destruct Hu as [Hi Hz]; cbn [st].
      - destruct (st_cpu i z Hz) as (A & B & C & D). eapply cpu_same; [exact I|exact O1|exact Hh|exact HD|exact Hi|exact A|exact C|exact D|by symmetry|exact HQ].
      - destruct (rt_halted2 _ _ _ _ _ _ _ I O1 Hh HD) as (m & HM & Ed & Hval).
        eapply (halted_same _ _ _ _ _ HM (VUint64 z) _ _ i); [by apply me_has|exact Hz|by rewrite Ed|by rewrite Ed|by apply Hval|rewrite Hs; apply Z.eqb_refl|exact HQ].
    Qed.
    Lemma fig_changed u ss : fig_ok u -> ~ unchanged g u -> faults w1 (st u :: ss).
    Proof using All.
      destruct u as [[b i] z]. intros Hu Hs. unfold unchanged in Hs. cbn in Hs. destruct b; destruct Hu as [Hi Hz]; cbn [st].
      - destruct (st_cpu i z Hz) as (A & B & C & D). eapply cpu_changed; [exact I|exact O1|exact Hh|exact HD|exact Hi|exact A|exact C|exact D|congruence].
      - destruct (rt_halted2 _ _ _ _ _ _ _ I O1 Hh HD) as (m & HM & Ed & Hval).
        eapply (halted_changed _ _ _ _ _ HM (VUint64 z) _ _ i); [by apply me_has|exact Hz|by rewrite Ed|by rewrite Ed|by apply Hval|apply Z.eqb_neq; congruence].
    Qed.
    Lemma figs_same l (Q : world -> Prop) : Forall fig_ok l -> Forall (unchanged g) l -> Q w1 -> surely w1 (map st l) Q.
    Proof using All.
      intros H1 H2 HQ. induction l as [|u l IH]; [by apply surely_nil|]. apply Forall_cons in H1 as [? ?]. apply Forall_cons in H2 as [? ?]. cbn [map]. apply fig_same; auto.
    Qed.
    Lemma figs_changed l : Forall fig_ok l -> ~ Forall (unchanged g) l -> faults w1 (map st l).
    Proof using All.
      intros H1 H2. induction l as [|u l IH]; [by destruct H2|]. apply Forall_cons in H1 as [Hu Hl]. cbn [map].
      destruct (decide (g u.1.1 u.1.2 = u.2)) as [E|E].
      - change (st u :: map st l) with ([st u] ++ map st l). eapply (faults_app _ _ _ (fun w' => w' = w1)); [apply fig_same; [exact Hu|exact E|by apply surely_nil]|].
        intros ? ->. apply IH; [exact Hl|]. intros F. apply H2. by constructor.
      - by apply fig_changed.
    Qed.
  End halt.
  Lemma figs_stop_same w g erase l (Q : world -> Prop) : inv g w -> Forall fig_ok l -> Forall (unchanged g) l -> surely w [must_stop erase] Q -> surely w (must_stop erase :: map st l) Q.
  Proof using Type.
    intros I H1 H2 HQ. change (must_stop erase :: map st l) with ([must_stop erase] ++ map st l).
    pose proof (s_stop _ _ _ _ _ _ erase (proj1 I)) as [E HS].
    eapply (surely_app _ _ _ (fun w' => Q w' /\ exec w [must_stop erase] true w')).
    { destruct HQ as [E' HQ]. split; [exact E'|]. intros b w' X. destruct (HQ _ _ X) as [-> q]. auto. }
    intros w1 [q X]. destruct (HS _ _ X) as (_ & O1 & Hh & _ & _ & HD). eapply figs_same; eauto.
  Qed.
  Lemma figs_stop_changed w g erase l : inv g w -> Forall fig_ok l -> ~ Forall (unchanged g) l -> faults w (must_stop erase :: map st l).
  Proof using Type.
    intros I H1 H2. change (must_stop erase :: map st l) with ([must_stop erase] ++ map st l).
    eapply faults_app; [exact (s_stop _ _ _ _ _ _ erase (proj1 I))|]. intros w1 (O1 & Hh & _ & _ & HD). eapply figs_changed; eauto.
  Qed.
  (** The figures of a round. *)
  Definition figs (c o : Z) (x : gostring -> Z) : list fig := [(true, str "CGoCalls", c); (true, str "Goroutines", o)] ++ map (fun i => (false, i, x i)) mem_updated.
  Lemma figs_round cgo gor mem k : map st (figs (cgo k) (gor k) (mem k)) = runtime_round cgo gor mem k.
  Proof using Type. unfold figs, runtime_round. rewrite map_app, map_map. reflexivity. Qed.
  Lemma figs_ok c o x : in_signed 64 c -> in_signed 64 o -> (forall i, in_unsigned 64 (x i)) -> Forall fig_ok (figs c o x).
  Proof using Type.
    intros Hc Ho Hx. unfold figs. apply Forall_app. split.
    - apply Forall_cons. split; [split; [left|exact Hc]|]. apply Forall_cons. split; [split; [right; left|exact Ho]|]. apply Forall_nil. exact Logic.I.
    - apply Forall_forall. intros u Hu. apply elem_of_list_fmap in Hu as (i & -> & Hi). split; [by apply upd_mem|apply Hx].
  Qed.
  Lemma figs_nodup c o x : NoDup (figs c o x).*1.
  Proof using Type.
    unfold figs. assert ((map (fun i => (false, i, x i)) mem_updated).*1 = map (fun i => (false, i)) mem_updated) as E by (induction mem_updated as [|i l IH]; [reflexivity|cbn; f_equal; exact IH]).
    rewrite fmap_app, E. apply (bool_decide_eq_true_1 _). vm_compute. reflexivity.
  Qed.
  Lemma put_skip g l b i : (b, i) ∉ l.*1 -> foldl put g l b i = g b i.
  Proof using Type.
    revert g. induction l as [|u l IH]; intros g H; [reflexivity|]. cbn in *. apply not_elem_of_cons in H as [H1 H2]. rewrite IH by exact H2. unfold put. by rewrite decide_False.
  Qed.
  Lemma put_in g l b i z : NoDup l.*1 -> ((b, i), z) ∈ l -> foldl put g l b i = z.
  Proof using Type.
    revert g. induction l as [|u l IH]; intros g ND H; [by apply elem_of_nil in H|]. cbn in *. apply NoDup_cons in ND as [N1 N2]. apply elem_of_cons in H as [<-|H].
    - cbn in *. rewrite put_skip by exact N1. unfold put. cbn. by rewrite decide_True.
    - by apply IH.
  Qed.
  Lemma put_all g l1 l2 b i : NoDup (l1 ++ l2).*1 -> Forall (unchanged (foldl put g l1)) l2 -> foldl put g (l1 ++ l2) b i = foldl put g l1 b i.
  Proof using Type.
    intros ND F. rewrite foldl_app. destruct (decide ((b, i) ∈ l2.*1)) as [H|H]; [|by apply put_skip].
    apply elem_of_list_fmap in H as ([[b' i'] z] & E & H). cbn in E. injection E as <- <-. rewrite fmap_app in ND. apply NoDup_app in ND as (_ & _ & ND).
    rewrite (put_in _ _ _ _ z ND H). rewrite Forall_forall in F. symmetry. exact (F _ H).
  Qed.
  Lemma unchanged_before g l1 l2 : NoDup (l1 ++ l2).*1 -> Forall (unchanged (foldl put g l1)) l2 <-> Forall (unchanged g) l2.
  Proof using Type.
    intros ND. rewrite fmap_app in ND. apply NoDup_app in ND as (_ & ND & _). rewrite !Forall_forall. 
    assert (forall u, u ∈ l2 -> (unchanged (foldl put g l1) u <-> unchanged g u)) as G.
    { intros [[b i] z] Hu. unfold unchanged. cbn. rewrite put_skip; [done|]. intros H. apply (ND _ H). apply elem_of_list_fmap. by exists (b, i, z). }
    split; intros H u Hu; apply (G u Hu), H, Hu.
  Qed.
  Lemma figs_after cgo gor mem n b i : (b = true -> i ∈ cpu_names) -> (b = false -> i ∈ mem_names) ->
    foldl put (now (cpu_val cgo gor n) (mem_val mem n)) (figs (cgo n) (gor n) (mem n)) b i = now (cpu_val cgo gor (S n)) (mem_val mem (S n)) b i.
  Proof using Type.
    intros H1 H2. destruct b; unfold now.
    - specialize (H1 eq_refl). unfold cpu_names in H1. apply elem_of_cons in H1 as [->|H1]; [|apply elem_of_list_singleton in H1 as ->].
      + erewrite put_in; [|apply figs_nodup|left]. reflexivity.
      + erewrite put_in; [|apply figs_nodup|right; left]. reflexivity.
    - specialize (H2 eq_refl). apply me_upd in H2 as [->|H2].
      + rewrite put_skip; [reflexivity|]. unfold figs. intros H. apply elem_of_list_fmap in H as ([[b' i'] z] & E & H). cbn in E. injection E as <- <-.
        apply elem_of_app in H as [H|H].
        * repeat (apply elem_of_cons in H as [H|H]; [discriminate|]). by apply elem_of_nil in H.
        * apply elem_of_list_fmap in H as (j & E & H). injection E as E _. subst. by apply me_lookups.
      + erewrite put_in; [|apply figs_nodup|]. 2:{ apply elem_of_app. right. apply elem_of_list_fmap. eexists. split; [reflexivity|exact H2]. }
        unfold mem_val. rewrite decide_False; [reflexivity|]. intros ->. by apply me_lookups.
  Qed.
  (** The goroutine's round [n] with the stop after [j] of its updates. *)
  Lemma rt_mid cgo gor mem n j erase w : (forall k, in_signed 64 (cgo k)) -> (forall k, in_signed 64 (gor k)) -> (forall k i, in_unsigned 64 (mem k i)) ->
    rt_inv loc gen pid (cpu_val cgo gor n) (mem_val mem n) w ->
    let prog := take j (runtime_round cgo gor mem n) ++ must_stop erase :: drop j (runtime_round cgo gor mem n) in
    let same := Forall (unchanged (now (cpu_val cgo gor n) (mem_val mem n))) (drop j (figs (cgo n) (gor n) (mem n))) in
    (forall Q : world -> Prop, same -> (forall w', rt_inv loc gen pid (cpu_val cgo gor (S n)) (mem_val mem (S n)) w' -> surely w' [must_stop erase] Q) -> surely w prog Q) /\
    (~ same -> faults w prog).
  Proof using Type.
    intros HC HG HM I prog same. unfold prog. rewrite <- figs_round, firstn_map, skipn_map. set (F := figs (cgo n) (gor n) (mem n)) in *.
    assert (Forall fig_ok F) as FO by (apply figs_ok; auto). pose proof (figs_nodup (cgo n) (gor n) (mem n)) as ND. fold F in ND.
    assert (Forall fig_ok (take j F) /\ Forall fig_ok (drop j F)) as [F1 F2] by (apply Forall_app; by rewrite take_drop).
    assert (same <-> Forall (unchanged (foldl put (now (cpu_val cgo gor n) (mem_val mem n)) (take j F))) (drop j F)) as HS.
    { symmetry. apply unchanged_before. by rewrite take_drop. }
    pose proof (figs_run _ F1 w (now (cpu_val cgo gor n) (mem_val mem n)) I) as R. split.
    - intros Q Hs HQ. eapply surely_app; [exact R|]. intros w1 I1. eapply figs_stop_same; [exact I1|exact F2|by apply HS|]. apply HQ.
      revert I1. apply HS in Hs. apply rt_inv_ext; intros i Hi; rewrite <- (put_all _ _ (drop j F)), take_drop by (rewrite ?take_drop; assumption).
      + apply (figs_after cgo gor mem n true); [done|discriminate].
      + apply (figs_after cgo gor mem n false); [discriminate|done].
    - intros Hs. eapply faults_app; [exact R|]. intros w1 I1. eapply figs_stop_changed; [exact I1|exact F2|]. by rewrite <- HS.
  Qed.
End rt_mid.
