(** The factory of /repo/examples/acme that runs forever. *)
From Verif Require Import Base BaseFacts Floats GoVal MetricType ByteWriter Hash Units Indom Metrics Registry Prog
  Client Mmvdump View RegInv World OpRuns RegFacts WorldInv Sync FloatFacts ValueFacts MetricFacts SyncLive OpFacts GaugeFacts VectorFacts HistFacts
  SyncView Life Parse NewFacts Example Samples SamplesFacts SamplesRun SamplesRt SamplesView FlocqFacts FloatMono FloatErr.
From Coq Require Import Reals Lra.
From Flocq Require Import Core.Core IEEE754.BinarySingleNaN.
Local Open Scope Z_scope.

(** ** Whole numbers as doubles *)
Lemma small_format z : Z.abs z <= 2 ^ 53 -> generic_format radix2 (SpecFloat.fexp 53 1024) (IZR z).
Proof.
  intros H. change (SpecFloat.fexp 53 1024) with (FLT_exp (-1074) 53). apply generic_format_FLT.
  destruct (decide (Z.abs z = 2 ^ 53)) as [E|N].
  - exists (Float radix2 (z / 2 ^ 53) 53); cbn [Fnum Fexp]; [|destruct (Z.abs_eq_or_opp z) as [K|K]; rewrite K in E; [rewrite E|replace z with (- 2 ^ 53) by lia]; vm_compute; reflexivity|lia].
    unfold F2R. cbn [Fnum Fexp]. change (bpow radix2 53) with (IZR (2 ^ 53)). rewrite <- mult_IZR. f_equal.
    destruct (Z.abs_eq_or_opp z) as [K|K]; rewrite K in E; [rewrite E|replace z with (- 2 ^ 53) by lia]; reflexivity.
  - exists (Float radix2 z 0); cbn [Fnum Fexp]; [unfold F2R; cbn; lra|change (Zpower radix2 53) with (2 ^ 53); lia|lia].
Qed.
Lemma small_fits z : Z.abs z <= 2 ^ 53 -> (Rabs (IZR z) < bpow radix2 1024)%R.
Proof.
  intros H. apply Rle_lt_trans with (bpow radix2 53); [|apply bpow_lt; lia]. rewrite <- abs_IZR. change (bpow radix2 53) with (IZR (2 ^ 53)). by apply IZR_le.
Qed.
Definition norm (z : Z) := BinarySingleNaN.binary_normalize 53 1024 P64' M64' mode_NE z 0 false.
Lemma norm_spec z : 0 <= z <= 2 ^ 53 -> B2R (norm z) = IZR z /\ is_finite (norm z) = true /\ Bsign (norm z) = false.
Proof.
  intros Hz. pose proof (binary_normalize_correct 53 1024 P64' M64' mode_NE z 0 false) as H. cbn zeta in H. fold (norm z) in H.
  assert (F2R (Float radix2 z 0) = IZR z) as E by (unfold F2R; cbn; apply Rmult_1_r). rewrite E in H.
  rewrite (round_generic radix2 (SpecFloat.fexp 53 1024) (round_mode mode_NE) (IZR z)) in H by (apply small_format; lia).
  rewrite Rlt_bool_true in H by (apply small_fits; lia). destruct H as (H1 & H2 & H3). split; [exact H1|]. split; [exact H2|]. rewrite H3.
  assert (0 <= IZR z)%R as P by (apply IZR_le; lia). destruct (Rcompare_spec (IZR z) 0); [lra|reflexivity|reflexivity].
Qed.
Lemma of_Z_add a b : 0 <= a -> 0 <= b -> a + b <= 2 ^ 53 -> f64_add (f64_of_Z a) (f64_of_Z b) = f64_of_Z (a + b).
Proof.
  intros Ha Hb Hs. pose proof (OpRuns.f64_of_Z_range a) as Ra. pose proof (OpRuns.f64_of_Z_range b) as Rb.
  assert (forall z Hz, b64 (f64_of_Z z) Hz = norm z) as Eb.
  { intros z Hz. apply B2SF_inj. rewrite b64_SF. apply f64_of_Z_b. }
  destruct (norm_spec a ltac:(lia)) as (A1 & A2 & A3). destruct (norm_spec b ltac:(lia)) as (B1 & B2 & B3). destruct (norm_spec (a + b) ltac:(lia)) as (C1 & C2 & C3).
  apply decode_inj; [apply f64_add_range|apply OpRuns.f64_of_Z_range| |].
  - rewrite (f64_add_b _ _ Ra Rb), !Eb, f64_of_Z_b. fold (norm (a + b)). f_equal.
    pose proof (Bplus_correct 53 1024 P64 M64 mode_NE (norm a) (norm b) A2 B2) as H. rewrite A1, B1, <- plus_IZR in H.
    rewrite (round_generic radix2 (SpecFloat.fexp 53 1024) (round_mode mode_NE)) in H by (apply small_format; lia).
    rewrite Rlt_bool_true in H by (apply small_fits; lia). destruct H as (H1 & H2 & H3). apply B2R_Bsign_inj; [exact H2|exact C2|by rewrite C1|].
    rewrite C3, H3, A3, B3. assert (0 <= IZR (a + b))%R as P by (apply IZR_le; lia). destruct (Rcompare_spec (IZR (a + b)) 0); [lra|reflexivity|reflexivity].
  - rewrite (f64_add_b _ _ Ra Rb), !Eb. intros N. pose proof (Bplus_correct 53 1024 P64 M64 mode_NE (norm a) (norm b) A2 B2) as H. rewrite A1, B1, <- plus_IZR in H.
    rewrite (round_generic radix2 (SpecFloat.fexp 53 1024) (round_mode mode_NE)) in H by (apply small_format; lia).
    rewrite Rlt_bool_true in H by (apply small_fits; lia). destruct H as (_ & H2 & _). rewrite <- SF_B_finite, N in H2. discriminate.
Qed.
Lemma of_Z_pos z : 0 < z <= 2 ^ 53 -> (forall s, f64_val (f64_of_Z z) <> S754_zero s) /\ f64_val (f64_of_Z z) <> S754_nan.
Proof.
  intros Hz. destruct (norm_spec z ltac:(lia)) as (A1 & A2 & _). rewrite f64_of_Z_b. fold (norm z). assert (IZR z <> 0%R) as N by (intros E0; apply eq_IZR in E0; lia).
  split; [intros s E|intros E].
  - rewrite <- SF_B_R, E in A1. cbn in A1. by symmetry in A1.
  - rewrite <- SF_B_finite, E in A2. discriminate.
Qed.
Lemma of_Z_same z x : 0 < z <= 2 ^ 53 -> in_unsigned 64 x -> f64_same (f64_of_Z z) x -> x = f64_of_Z z.
Proof.
  intros Hz Hx H. destruct (of_Z_pos z Hz) as [N1 N2]. destruct H as [->|[H|[H _]]]; [reflexivity| |by rewrite H in N2].
  destruct (same_but_zero_eqb _ _ (OpRuns.f64_of_Z_range z) Hx H) as [->|(s & s' & E & _)]; [reflexivity|]. by apply N1 in E.
Qed.

(** ** A gauge's Inc by a whole number *)
Section upd.
  Context (w : world) (loc : gostring) (cluster : Z) (r : registry) (gen pid : Z) (mp : nat) (D : mdesc) (RU : running w loc cluster r gen pid) (Reg : registered r mp).
  Context (f : world -> option call) (mst : bool) (ss : list gstmt) (Q : world -> Prop).
  Lemma s_ginc n d : is_m w mp D MGauge None (one (VF64 (f64_of_Z n))) -> f w = Some (CUpdate mp (OGInc (f64_of_Z d)) mst) -> 0 <= n -> 0 <= d -> n + d <= 2 ^ 53 ->
    (forall w1, running w1 loc cluster r gen pid -> keeps_others w mp w1 -> is_m w1 mp D MGauge None (one (VF64 (f64_of_Z (n + d)))) -> surely w1 ss Q) ->
    surely w (GCall f :: ss) Q.
  Proof using RU Reg.
    intros (m & Hm & <- & Hk & Hi & Hv) Hf Hn Hd Hs H. destruct (ru_live _ _ _ _ _ _ _ RU Reg _ Hm) as [HL Hok].
    assert (m_val m = Some (VF64 (f64_of_Z n))) as Hv0 by (rewrite <- val_at_single, Hv; reflexivity).
    assert (exists fs' m', gauge_inc (w_files w) m (f64_of_Z d) = (ROk, fs', m') /\ m_val m' = Some (VF64 (f64_of_Z (n + d)))) as (fs' & m' & E & Hv').
    { destruct (decide (d = 0)) as [->|N].
      - eexists _, _. split; [apply gauge_inc_zero; vm_compute; reflexivity|]. by rewrite Z.add_0_r.
      - destruct (gauge_inc_ok (w_heap w) (w_files w) m (f64_of_Z n) Hok Hk Hv0 HL (f64_of_Z d) (OpRuns.f64_of_Z_range d)) as (fs' & m' & x & E & Hx & Sx).
        exists fs', m'. split; [exact E|]. rewrite of_Z_add in Sx by lia. rewrite Hx. do 2 f_equal. apply of_Z_same; [lia| |exact Sx].
        assert (run_op (w_files w) (w_heap w) m (OGInc (f64_of_Z d)) = Some (ROk, fs', m')) as Hrun by (unfold run_op; rewrite Hk, E; reflexivity).
        pose proof RU as [[R Hdd] _ _ _].
        assert (wstep w (CUpdate mp (OGInc (f64_of_Z d)) false) ROk (mkWorld (mkHeap (h_indoms (w_heap w)) (<[mp := m']> (h_metrics (w_heap w)))) (w_regs w) (w_clients w) fs' (w_paths w) (w_offs w) false)) as St.
        { exact (ws_update w mp (OGInc (f64_of_Z d)) false m ROk fs' m' Hdd Hm (OpRuns.f64_of_Z_range d) Hrun). }
        eapply f64_range; [eapply wstep_ok; [apply reachable_ok, R|exact St]|cbn; apply lookup_insert|exact Hx]. }
    assert (run_op (w_files w) (w_heap w) m (OGInc (f64_of_Z d)) = Some (ROk, fs', m')) as Hrun by (unfold run_op; rewrite Hk, E; reflexivity).
    assert (op_args (w_heap w) m (OGInc (f64_of_Z d))) as Ha by (cbn; apply OpRuns.f64_of_Z_range). destruct (frame_kind _ _ _ _ mst _ _ _ Hok Ha Hrun) as [E1 E2].
    eapply s_update; [exact RU|exact Hf|exact Hm|exact Ha|exact I|exact Hrun|].
    intros w1 RU1 Hin Hms. apply H; auto.
    - intros mp' D' K' I' g' N M. eapply is_m_other; eauto.
    - exists m'. rewrite Hms, lookup_insert. split_and!; auto; try congruence.
      + pose proof RU as [[R Hdd] _ _ _].
        assert (wstep w (CUpdate mp (OGInc (f64_of_Z d)) false) ROk (mkWorld (mkHeap (h_indoms (w_heap w)) (<[mp := m']> (h_metrics (w_heap w)))) (w_regs w) (w_clients w) fs' (w_paths w) (w_offs w) false)) as St.
        { exact (ws_update w mp (OGInc (f64_of_Z d)) false m ROk fs' m' Hdd Hm Ha Hrun). }
        rewrite <- Hk. eapply kind_step; [apply reachable_ok, R|exact St|exact Hm|cbn; apply lookup_insert|]. intros s t E0. congruence.
      + intros n0. destruct n0 as [i|]; [|by rewrite val_at_single]. unfold val_at, cell_at. rewrite Hi in E2. unfold m_indom in E2. destruct (m_body m'); [reflexivity|discriminate].
  Qed.
End upd.

(** ** The program *)
(** The products, in the order in which /repo/examples/acme/main.go:173-175 creates their builders. *)
Definition product (p : nat) : gostring := nth p [str "Rockets"; str "Anvils"; str "Giant_Rubber_Bands"] [].
(** NewProductBuilder, /repo/examples/acme/main.go:122-142: the counter of product [p] is the metric at 2p+1, the gauge the one at 2p+2. *)
Definition count_of (p : nat) : option metric := NewPCPCounter 0 (str "products." ++ product p ++ str ".count") [].
Definition time_of (p : nat) : option metric := NewPCPGauge 0 (str "products." ++ product p ++ str ".time") [].
Definition builder (p : nat) : list gstmt :=
  [GNew (2 * p + 1) (count_of p); GNew (2 * p + 2) (time_of p); register (2 * p + 1); register (2 * p + 2)].
(** The updates of Build, /repo/examples/acme/main.go:155-156: [(p, Some ms)] adds the time a product took, [(p, None)] counts it. *)
Definition build_stmt (e : nat * option Z) : gstmt :=
  match e with
  | (p, Some ms) => do_call (CUpdate (2 * p + 2) (OGInc (f64_of_Z ms)) true)
  | (p, None) => do_call (CUpdate (2 * p + 1) OCUp false)
  end.
(** forever, /repo/examples/acme/main.go:167-199, with the updates of the three goroutines in the order they happen: [before] until MustStart begins, [es] after
    it has returned. Pauses, the difficulties (they bound the times) and what is printed are left out. *)
Definition forever_setup (loc : gostring) : list gstmt := new_client (str "acme") loc ++ builder 0 ++ builder 1 ++ builder 2.
Definition forever (loc : gostring) (gen pid : Z) (before es : list (nat * option Z)) : list gstmt :=
  forever_setup loc ++ map build_stmt before ++ must_start gen pid :: map build_stmt es.

(** What the updates come to for product [p]. *)
Definition counted (p : nat) (es : list (nat * option Z)) : Z := Z.of_nat (length (filter (fun e => e = (p, None)) es)).
Definition ms_of (p : nat) (e : nat * option Z) : Z := match e with (q, Some ms) => if decide (q = p) then ms else 0 | _ => 0 end.
Definition timed (p : nat) (es : list (nat * option Z)) : Z := foldr (fun e s => ms_of p e + s) 0 es.
Definition possible (e : nat * option Z) : Prop := (e.1 < 3)%nat /\ match e.2 with Some ms => 0 <= ms | None => True end.

Definition cd (p : nat) : mdesc := m_desc (get no_metric (count_of p)).
Definition gd (p : nat) : mdesc := m_desc (get no_metric (time_of p)).
Definition cm (p : nat) (v : Z) : metric := mkMetric (cd p) MCounter (BSingle (mkCell (VInt64 v) None)).
Definition gm (p : nat) (v : Z) : metric := mkMetric (gd p) MGauge (BSingle (mkCell (VF64 (f64_of_Z v)) None)).
Definition ac_heap (n t : nat -> Z) : heap :=
  mkHeap {[0%nat := histogramIndom]} (<[6%nat := gm 2 (t 2%nat)]> (<[5%nat := cm 2 (n 2%nat)]> (<[4%nat := gm 1 (t 1%nat)]> (<[3%nat := cm 1 (n 1%nat)]> (<[2%nat := gm 0 (t 0%nat)]> (<[1%nat := cm 0 (n 0%nat)]> ∅)))))).
Definition zero (p : nat) : Z := 0.
Definition ac_hp : heap := ac_heap zero zero.
Definition ac_add (r : registry) (mp : nat) : registry := (add_metric ac_hp r mp (get no_metric (h_metrics ac_hp !! mp))).2.
Definition ac_r2 : registry := ac_add (ac_add new_registry 1) 2.
Definition ac_r4 : registry := ac_add (ac_add ac_r2 3) 4.
Definition ac_r : registry := ac_add (ac_add ac_r4 5) 6.
Definition ac_cl : Z := hash (str "acme") PCPClusterIDBitLength.
(** Before Start. *)
Definition ac_w (loc : gostring) (n t : nat -> Z) : world :=
  mkWorld (ac_heap n t) (<[0%nat := ac_r]> ∅) (<[0%nat := mkClient loc ac_cl ProcessFlag 0 None]> ∅) (mkFiles ∅ ∅) ∅ ∅ false.
(** After Start. *)
Definition ac_at (loc : gostring) (gen pid : Z) (n t : nat -> Z) (w : world) : Prop :=
  running w loc ac_cl ac_r gen pid /\ forall p, (p < 3)%nat -> is_m w (2 * p + 1) (cd p) MCounter None (one (VInt64 (n p))) /\ is_m w (2 * p + 2) (gd p) MGauge None (one (VF64 (f64_of_Z (t p)))).

Lemma three (P : nat -> Prop) : P 0%nat -> P 1%nat -> P 2%nat -> forall p, (p < 3)%nat -> P p.
Proof. intros A B C [|[|[|p]]] H; auto; lia. Qed.
Lemma count_is p : (p < 3)%nat -> count_of p = Some (cm p 0).
Proof. revert p. apply three; vm_compute; reflexivity. Qed.
Lemma time_is p : (p < 3)%nat -> time_of p = Some (gm p 0).
Proof. revert p. apply three; vm_compute; reflexivity. Qed.
Lemma ac_reg p : (p < 3)%nat -> registered ac_r (2 * p + 1) /\ registered ac_r (2 * p + 2).
Proof. revert p. apply three; split; apply reg1; vm_compute; reflexivity. Qed.

Definition world_of (loc : gostring) (hp : heap) (r : registry) : world :=
  mkWorld hp (<[0%nat := r]> ∅) (<[0%nat := mkClient loc ac_cl ProcessFlag 0 None]> ∅) (mkFiles ∅ ∅) ∅ ∅ false.
Lemma builder_ok loc hp r r1 r2 p ss (Q : world -> Prop) : (p < 3)%nat -> okw (world_of loc hp r) -> h_metrics hp !! (2 * p + 1)%nat = None -> h_metrics hp !! (2 * p + 2)%nat = None -> h_indoms hp !! 100%nat = None ->
  let hp' := mkHeap (h_indoms hp) (<[(2 * p + 2)%nat := gm p 0]> (<[(2 * p + 1)%nat := cm p 0]> (h_metrics hp))) in
  add_metric hp' r (2 * p + 1) (cm p 0) = (ROk, r1) -> add_metric hp' r1 (2 * p + 2) (gm p 0) = (ROk, r2) ->
  (okw (world_of loc hp' r2) -> surely (world_of loc hp' r2) ss Q) -> surely (world_of loc hp r) (builder p ++ ss) Q.
Proof.
  intros Hp O N1 N2 Ni hp' A1 A2 H. unfold builder. rewrite count_is, time_is by exact Hp. cbn [app].
  eapply (s_new _ _ (cm p 0) _ _ 100); [exact O|exact N1|exact Ni|eapply (cr_counter _ _ 0); [cbv; intuition discriminate|by apply count_is]|]. clear O. intros O.
  eapply (s_new _ _ (gm p 0) _ _ 100); [exact O| |exact Ni|eapply (cr_gauge _ _ 0); [cbv; intuition discriminate|by apply time_is]|].
  { cbn. rewrite lookup_insert_ne by lia. exact N2. }
  clear O. intros O.
  eapply s_register with (r := r) (m := cm p 0) (r' := r1); [exact O|cbn; apply lookup_insert|cbn; rewrite lookup_insert_ne by lia; apply lookup_insert|exact A1|]. clear O. intros O.
  eapply s_register with (r := r1) (m := gm p 0) (r' := r2); [exact O|cbn; apply lookup_insert|cbn; apply lookup_insert|exact A2|]. clear O. intros O.
  match goal with |- surely ?W _ _ => assert (W = world_of loc hp' r2) as E end.
  { unfold set_regs, new_metric, world_of, hp'. cbn [w_heap w_regs w_clients w_files w_paths w_offs w_dead h_indoms h_metrics]. rewrite !insert_insert. reflexivity. }
  rewrite E in O |- *. exact (H O).
Qed.
Lemma setup_ok loc ss (Q : world -> Prop) : (okw (ac_w loc zero zero) -> surely (ac_w loc zero zero) ss Q) -> surely w_init (forever_setup loc ++ ss) Q.
Proof.
  intros H. unfold forever_setup. rewrite <- !app_assoc. eapply s_client; [exact okw_init|reflexivity|reflexivity|]. intros O.
  match type of O with okw ?W => change W with (world_of loc (w_heap w_init) new_registry) in O |- * end.
  eapply (builder_ok _ _ _ (ac_add new_registry 1) ac_r2); [lia|exact O|reflexivity|reflexivity|reflexivity|vm_compute; reflexivity|vm_compute; reflexivity|]. clear O. intros O.
  eapply (builder_ok _ _ _ (ac_add ac_r2 3) ac_r4); [lia|exact O|reflexivity|reflexivity|reflexivity|vm_compute; reflexivity|vm_compute; reflexivity|]. clear O. intros O.
  eapply (builder_ok _ _ _ (ac_add ac_r4 5) ac_r); [lia|exact O|reflexivity|reflexivity|reflexivity|vm_compute; reflexivity|vm_compute; reflexivity|]. clear O. intros O.
  exact (H O).
Qed.
