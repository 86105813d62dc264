(** The factory of /repo/examples/acme: what its updates come to. *)
From Verif Require Import Base BaseFacts Floats GoVal MetricType ByteWriter Hash Units Indom Metrics Registry Prog
  Client Mmvdump View RegInv World OpRuns RegFacts WorldInv Sync FloatFacts ValueFacts MetricFacts SyncLive OpFacts GaugeFacts VectorFacts HistFacts
  SyncView Life Parse NewFacts Example Samples SamplesFacts SamplesRun SamplesRt SamplesView SamplesDl SamplesAcme.
Local Open Scope Z_scope.

Definition bump (n : nat -> Z) (p : nat) (v : Z) (q : nat) : Z := if decide (q = p) then v else n q.
Definition ev_n (n : nat -> Z) (e : nat * option Z) : nat -> Z := match e with (p, None) => bump n p (to_signed 64 (n p + 1)) | _ => n end.
Definition ev_t (t : nat -> Z) (e : nat * option Z) : nat -> Z := match e with (p, Some ms) => bump t p (t p + ms) | _ => t end.
Definition fits (t : nat -> Z) (e : nat * option Z) : Prop := possible e /\ match e with (p, Some ms) => 0 <= t p /\ t p + ms <= 2 ^ 53 | _ => True end.

(** ** Before Start *)
Local Opaque f64_of_Z.
Lemma pre_up fs hp p v : in_signed 64 v -> (p < 3)%nat -> run_op fs hp (cm p v) OCUp = Some (ROk, fs, cm p (to_signed 64 (v + 1))).
Proof.
  intros Hv Hp. assert (md_type (cd p) = Int64Type) as Ht by (revert p Hp; apply three; reflexivity).
  unfold run_op, cm. cbn [m_kind]. unfold counter_up, counter_inc. cbn [m_val m_body as_int64 c_val Z.ltb Z.eqb Z.compare]. unfold m_set. cbn [m_body m_desc]. rewrite Ht.
  unfold set_cell. cbn. unfold store_cell. cbn [go_eqb c_val c_upd]. destruct (to_signed 64 (v + 1) =? v) eqn:E; [|reflexivity]. apply Z.eqb_eq in E. cbn. by rewrite E.
Qed.
Lemma pre_inc fs hp p v d : 0 <= v -> 0 <= d -> v + d <= 2 ^ 53 -> (p < 3)%nat -> run_op fs hp (gm p v) (OGInc (f64_of_Z d)) = Some (ROk, fs, gm p (v + d)).
Proof.
  intros Hv Hd Hs Hp. assert (md_type (gd p) = DoubleType) as Ht by (revert p Hp; apply three; reflexivity).
  unfold run_op. cbn [m_kind gm]. unfold gauge_inc. destruct (decide (d = 0)) as [->|N].
  - assert (f64_eqb (f64_of_Z 0) f64_zero = true) as -> by (vm_compute; reflexivity). by rewrite Z.add_0_r.
  - destruct (f64_eqb (f64_of_Z d) f64_zero) eqn:E.
    { exfalso. apply eqb_zero in E as [s E]. destruct (of_Z_pos d ltac:(lia)) as [A _]. by apply A in E. }
    cbn [m_val m_body as_f64 c_val gm]. rewrite of_Z_add by lia. unfold m_set. cbn [m_body m_desc gm]. rewrite Ht. unfold set_cell. rewrite double_ok. cbn [negb].
    change (resolve DoubleType (VF64 (f64_of_Z (v + d)))) with (VF64 (f64_of_Z (v + d))). unfold store_cell. cbn [c_val c_upd go_eqb]. destruct (f64_eqb (f64_of_Z (v + d)) (f64_of_Z v)) eqn:Eq; [|reflexivity].
    cbn [with_body]. do 2 f_equal. unfold gm. do 4 f_equal. apply of_Z_same; [lia|apply OpRuns.f64_of_Z_range|]. right. left. exact Eq.
Qed.
Lemma pre_call loc n t n' t' mp op mst m m' ss (Q : world -> Prop) : okw (ac_w loc n t) -> h_metrics (ac_heap n t) !! mp = Some m -> op_args (ac_heap n t) m op ->
  run_op (mkFiles ∅ ∅) (ac_heap n t) m op = Some (ROk, mkFiles ∅ ∅, m') -> ac_heap n' t' = mkHeap (h_indoms (ac_heap n t)) (<[mp := m']> (h_metrics (ac_heap n t))) ->
  (okw (ac_w loc n' t') -> surely (ac_w loc n' t') ss Q) -> surely (ac_w loc n t) (do_call (CUpdate mp op mst) :: ss) Q.
Proof.
  intros O Hm Ha Hrun Eh H. pose proof O as [R D].
  assert (wstep (ac_w loc n t) (CUpdate mp op mst) ROk (ac_w loc n' t')) as S1.
  { unfold ac_w at 2. rewrite Eh. apply (ws_update (ac_w loc n t) mp op mst m ROk (mkFiles ∅ ∅) m'); auto. cbn [w_files w_heap ac_w]. destruct mst; rewrite Hrun; reflexivity. }
  eapply s_call; [exact O|reflexivity|exact S1|reflexivity| |exact H].
  intros o w2 S2. inversion S2 as [| | | | | | | | | | | | | | |w0 mp0 op0 mst0 m0 o0 fs0 m0' E1 E2 E3 E4]; subst. cbn [w_files w_heap ac_w] in *. assert (m0 = m) as -> by congruence.
  rewrite Hrun in E4. destruct mst; cbn in E4; injection E4 as <- <- <-; (split; [reflexivity|]); unfold ac_w; by rewrite Eh.
Qed.
Definition good_n (n : nat -> Z) : Prop := forall p, in_signed 64 (n p).
Lemma heap_t n t p ms : (p < 3)%nat -> ac_heap n (ev_t t (p, Some ms)) = mkHeap (h_indoms (ac_heap n t)) (<[(2 * p + 2)%nat := gm p (t p + ms)]> (h_metrics (ac_heap n t))).
Proof.
  revert p. apply three; unfold ac_heap; cbn [h_indoms h_metrics ev_t Nat.mul Nat.add]; f_equal;
    match goal with |- ?l = <[?k := _]> _ => remember l as L eqn:EL; repeat rewrite (insert_commute _ k _) by lia end; rewrite insert_insert; subst L; reflexivity.
Qed.
Lemma heap_n n t p : (p < 3)%nat -> ac_heap (ev_n n (p, None)) t = mkHeap (h_indoms (ac_heap n t)) (<[(2 * p + 1)%nat := cm p (to_signed 64 (n p + 1))]> (h_metrics (ac_heap n t))).
Proof.
  revert p. apply three; unfold ac_heap; cbn [h_indoms h_metrics ev_n Nat.mul Nat.add]; f_equal;
    match goal with |- ?l = <[?k := _]> _ => remember l as L eqn:EL; repeat rewrite (insert_commute _ k _) by lia end; rewrite insert_insert; subst L; reflexivity.
Qed.
Lemma look n t p : (p < 3)%nat -> h_metrics (ac_heap n t) !! (2 * p + 1)%nat = Some (cm p (n p)) /\ h_metrics (ac_heap n t) !! (2 * p + 2)%nat = Some (gm p (t p)).
Proof. revert p. apply three; split; reflexivity. Qed.
Lemma pre_step loc n t e ss (Q : world -> Prop) : okw (ac_w loc n t) -> good_n n -> fits t e ->
  (okw (ac_w loc (ev_n n e) (ev_t t e)) -> surely (ac_w loc (ev_n n e) (ev_t t e)) ss Q) -> surely (ac_w loc n t) (build_stmt e :: ss) Q.
Proof.
  intros O G [P F] H. destruct e as [p [ms|]]; cbn [build_stmt]; destruct P as [Hp P]; cbn [fst snd] in Hp, P.
  - eapply (pre_call loc n t _ _ (2 * p + 2) _ true (gm p (t p)) (gm p (t p + ms))); [exact O|by apply look|apply OpRuns.f64_of_Z_range|apply pre_inc; tauto|by apply heap_t|exact H].
  - eapply (pre_call loc n t _ _ (2 * p + 1) _ false (cm p (n p)) _); [exact O|by apply look|exact I|apply pre_up; [apply G|exact Hp]|by apply heap_n|exact H].
Qed.

(** ** After Start *)
Lemma post_step loc gen pid n t e w ss (Q : world -> Prop) : ac_at loc gen pid n t w -> fits t e ->
  (forall w1, ac_at loc gen pid (ev_n n e) (ev_t t e) w1 -> surely w1 ss Q) -> surely w (build_stmt e :: ss) Q.
Proof.
  intros [RU A] [P F] H. destruct e as [p [ms|]]; cbn [build_stmt]; destruct P as [Hp P]; cbn [fst snd] in Hp, P; destruct (A p Hp) as [M1 M2]; destruct (ac_reg p Hp) as [R1 R2].
  - eapply (s_ginc w loc _ ac_r gen pid (2 * p + 2) (gd p) RU R2 _ true ss Q (t p) ms M2 eq_refl); try tauto. intros w1 RU1 KO M. apply H. split; [exact RU1|].
    intros q Hq. destruct (A q Hq) as [K1 K2]. cbn [ev_n ev_t]. unfold bump. split; [apply KO; [lia|exact K1]|]. destruct (decide (q = p)) as [->|N]; [exact M|apply KO; [lia|exact K2]].
  - eapply (s_up w loc _ ac_r gen pid (2 * p + 1) (cd p) RU R1 _ false ss Q (n p) _ M1 eq_refl eq_refl). intros w1 RU1 Hin KO M. apply H. split; [exact RU1|].
    intros q Hq. destruct (A q Hq) as [K1 K2]. cbn [ev_n ev_t]. unfold bump. split; [|apply KO; [lia|exact K2]]. destruct (decide (q = p)) as [->|N]; [exact M|apply KO; [lia|exact K1]].
Qed.
Lemma ac_start loc gen pid n t ss (Q : world -> Prop) : okw (ac_w loc n t) -> (forall w, ac_at loc gen pid n t w -> surely w ss Q) -> surely (ac_w loc n t) (must_start gen pid :: ss) Q.
Proof.
  intros O H. eapply s_start with (r := ac_r); [exact O|reflexivity|reflexivity| |].
  { apply startableb_ok. cbn [w_heap ac_w]. unfold ac_heap, gm, cm. generalize (f64_of_Z (t 0%nat)) (f64_of_Z (t 1%nat)) (f64_of_Z (t 2%nat)) (n 0%nat) (n 1%nat) (n 2%nat). intros. vm_compute. reflexivity. }
  intros w1 RU Hi Hm. apply H. split; [exact RU|]. intros p Hp. destruct (look n t p Hp) as [L1 L2].
  split; [eapply is_m_ext; [exact (Hm _ (cm p (n p)) L1)|]|eapply is_m_ext; [exact (Hm _ (gm p (t p)) L2)|]]; intros [i|]; reflexivity.
Qed.

(** ** All updates *)
Definition run_n := foldl ev_n.
Definition run_t := foldl ev_t.
Fixpoint all_fit (t : nat -> Z) (es : list (nat * option Z)) : Prop := match es with [] => True | e :: es => fits t e /\ all_fit (ev_t t e) es end.
Lemma good_step n e : good_n n -> good_n (ev_n n e).
Proof. intros G. destruct e as [p [ms|]]; [exact G|]. intros q. cbn. unfold bump. destruct (decide _); [apply to_signed_range; lia|apply G]. Qed.
Lemma pre_run loc es : forall n t ss (Q : world -> Prop), okw (ac_w loc n t) -> good_n n -> all_fit t es ->
  (okw (ac_w loc (run_n n es) (run_t t es)) -> surely (ac_w loc (run_n n es) (run_t t es)) ss Q) -> surely (ac_w loc n t) (map build_stmt es ++ ss) Q.
Proof.
  induction es as [|e es IH]; intros n t ss Q O G F H; [exact (H O)|]. destruct F as [F1 F2]. cbn [map app]. eapply pre_step; [exact O|exact G|exact F1|].
  intros O1. apply IH; [exact O1|by apply good_step|exact F2|exact H].
Qed.
Lemma post_run loc gen pid es : forall n t w, ac_at loc gen pid n t w -> all_fit t es -> surely w (map build_stmt es) (ac_at loc gen pid (run_n n es) (run_t t es)).
Proof.
  induction es as [|e es IH]; intros n t w A F; [by apply surely_nil|]. destruct F as [F1 F2]. cbn [map]. eapply post_step; [exact A|exact F1|]. intros w1 A1. by apply IH.
Qed.
Lemma all_fit_app t es es' : all_fit t (es ++ es') <-> all_fit t es /\ all_fit (run_t t es) es'.
Proof. revert t. induction es as [|e es IH]; intros t; cbn [app all_fit run_t foldl]; [tauto|]. rewrite IH. unfold run_t. tauto. Qed.
Lemma run_t_eq es : forall t p, run_t t es p = t p + timed p es.
Proof.
  induction es as [|e es IH]; intros t p; cbn [run_t foldl timed foldr]; [lia|]. fold run_t (timed p es). unfold run_t in IH |- *. rewrite IH. destruct e as [q [ms|]]; cbn [ev_t ms_of]; [|lia].
  unfold bump. destruct (decide (p = q)) as [->|N]; [rewrite decide_True by done; lia|rewrite decide_False by congruence; lia].
Qed.
Lemma timed_nneg p es : Forall possible es -> 0 <= timed p es.
Proof.
  induction 1 as [|e es [_ P] F IH]; cbn; [lia|]. fold (timed p es). destruct e as [q [ms|]]; cbn in *; [destruct (decide _); lia|lia].
Qed.
Lemma fit_all es : forall t, Forall possible es -> (forall p, (p < 3)%nat -> 0 <= t p) -> (forall p, (p < 3)%nat -> t p + timed p es <= 2 ^ 53) -> all_fit t es.
Proof.
  induction es as [|e es IH]; intros t F T H; [exact I|]. apply Forall_cons in F as [P F]. cbn [all_fit]. cbn [timed foldr] in H. pose proof (fun p => timed_nneg p es F) as NN. split.
  - split; [exact P|]. destruct e as [p [ms|]]; [|exact I]. destruct P as [Hp P]. cbn [fst snd] in *. split; [by apply T|]. specialize (H p Hp). specialize (NN p). cbn in H. rewrite decide_True in H by done. fold (timed p es) in H. lia.
  - destruct e as [p [ms|]]; cbn [ev_t].
    + destruct P as [Hp P]. cbn [fst snd] in *. apply IH; [exact F| |]; intros q Hq; unfold bump; destruct (decide (q = p)) as [->|N].
      * specialize (T p Hp). lia.
      * by apply T.
      * specialize (H p Hp). cbn in H. rewrite decide_True in H by done. fold (timed p es) in H. lia.
      * specialize (H q Hq). cbn in H. rewrite decide_False in H by congruence. fold (timed q es) in H. lia.
    + apply IH; [exact F|exact T|]. intros q Hq. specialize (H q Hq). cbn in H. fold (timed q es) in H. lia.
Qed.
Lemma run_n_eq es : forall n p, in_signed 64 (n p) -> run_n n es p = to_signed 64 (n p + counted p es).
Proof.
  induction es as [|e es IH]; intros n p Hn; [cbn; rewrite Z.add_0_r; symmetry; apply to_signed_id; [lia|exact Hn]|]. cbn [run_n foldl]. fold (run_n (ev_n n e) es). unfold run_n in IH |- *.
  assert (in_signed 64 (ev_n n e p)) as Hn' by (destruct e as [q [ms|]]; cbn; [exact Hn|unfold bump; destruct (decide _); [apply to_signed_range; lia|exact Hn]]).
  rewrite (IH _ _ Hn'). unfold counted. rewrite filter_cons. destruct e as [q [ms|]]; cbn [ev_n].
  - by rewrite decide_False by discriminate.
  - unfold bump. destruct (decide (p = q)) as [->|N]; [rewrite decide_True by done|by rewrite decide_False by congruence]. cbn [length]. rewrite Nat2Z.inj_succ.
    replace (n q + Z.succ (Z.of_nat (length (filter (fun e => e = (q, None)) es)))) with (n q + 1 + Z.of_nat (length (filter (fun e => e = (q, None)) es))) by lia.
    apply to_signed_add. lia.
Qed.
Lemma forever_runs loc gen pid before es : Forall possible (before ++ es) -> (forall p, (p < 3)%nat -> timed p (before ++ es) <= 2 ^ 53) ->
  surely w_init (forever loc gen pid before es) (fun w => exists n t, ac_at loc gen pid n t w /\ forall p, (p < 3)%nat -> n p = to_signed 64 (counted p (before ++ es)) /\ t p = timed p (before ++ es)).
Proof.
  intros F H. assert (all_fit zero (before ++ es)) as A by (apply fit_all; [exact F|intros; unfold zero; lia|exact H]).
  pose proof A as A0. apply all_fit_app in A as [A1 A2]. unfold forever. apply setup_ok. intros O.
  apply pre_run; [exact O|intros p; vm_compute; split; [discriminate|reflexivity]|exact A1|]. clear O. intros O. apply ac_start; [exact O|]. intros w A.
  eapply surely_mono; [exact (post_run loc gen pid es _ _ w A A2)|]. intros w' K. eexists _, _. split; [exact K|]. intros p Hp.
  assert (run_n (run_n zero before) es = run_n zero (before ++ es)) as -> by (unfold run_n; by rewrite foldl_app).
  assert (run_t (run_t zero before) es = run_t zero (before ++ es)) as -> by (unfold run_t; by rewrite foldl_app).
  rewrite run_n_eq, run_t_eq; [unfold zero; split; [by rewrite Z.add_0_l|lia]|]. vm_compute. split; [discriminate|reflexivity].
Qed.

(** What the file shows. *)
Definition six (f g : nat -> vmetric) : list vmetric := [f 0%nat; g 0%nat; f 1%nat; g 1%nat; f 2%nat; g 2%nat].
Definition six_values (f g : nat -> vmetric) (n t : nat -> Z) : list vvalue :=
  concat (map (fun p => [mkVV (f p) None (VInt64 (n p)); mkVV (g p) None (VF64 (f64_of_Z (t p)))]) [0; 1; 2]%nat).
Lemma ac_shows loc gen pid n t w : ac_at loc gen pid n t w ->
  let f p := want_metric false (cd p) None in let g p := want_metric false (gd p) None in
  file_shows w loc (str "acme") 1 2 gen pid (mkView [] [] (six f g) (six_values f g n t)).
Proof.
  intros [RU A] f g. assert (tocCount ac_r = 2) as Et by (vm_compute; reflexivity). assert (r_version2 ac_r = false) as Ev by (vm_compute; reflexivity).
  pose proof (running_shows w loc (str "acme") ac_r gen pid) as RS. rewrite Et, Ev in RS. apply RS; [exact RU|]. clear RS.
  destruct (A 0%nat ltac:(lia)) as [M1 M2]. destruct (A 1%nat ltac:(lia)) as [M3 M4]. destruct (A 2%nat ltac:(lia)) as [M5 M6]. clear A. cbn [Nat.mul Nat.add] in *.
  pose proof M1 as (m1 & H1 & _). pose proof M2 as (m2 & H2 & _). pose proof M3 as (m3 & H3 & _). pose proof M4 as (m4 & H4 & _). pose proof M5 as (m5 & H5 & _). pose proof M6 as (m6 & H6 & _).
  destruct (values_single _ _ _ _ _ _ false _ M1 eq_refl H1) as [V1 W1]. destruct (values_single _ _ _ _ _ _ false _ M2 eq_refl H2) as [V2 W2].
  destruct (values_single _ _ _ _ _ _ false _ M3 eq_refl H3) as [V3 W3]. destruct (values_single _ _ _ _ _ _ false _ M4 eq_refl H4) as [V4 W4].
  destruct (values_single _ _ _ _ _ _ false _ M5 eq_refl H5) as [V5 W5]. destruct (values_single _ _ _ _ _ _ false _ M6 eq_refl H6) as [V6 W6].
  assert ((map_to_list (r_metrics ac_r)).*2 ≡ₚ [1; 2; 3; 4; 5; 6]%nat) as P by (apply (bool_decide_eq_true_1 _); vm_compute; reflexivity).
  assert (map_to_list (r_indoms ac_r) = []) as Ei by (vm_compute; reflexivity).
  unfold want_view, reg_indoms, reg_metrics. rewrite Ei, Ev. cbn [fmap list_fmap omap list_omap map concat].
  split; [reflexivity|]. split; [reflexivity|]. split.
  - cbn [v_metrics]. rewrite P. cbn [omap list_omap]. rewrite H1, H2, H3, H4, H5, H6. cbn [map]. rewrite V1, V2, V3, V4, V5, V6. reflexivity.
  - cbn [v_values]. rewrite P. cbn [omap list_omap]. rewrite H1, H2, H3, H4, H5, H6. cbn [map concat]. rewrite W1, W2, W3, W4, W5, W6. reflexivity.
Qed.
