(** The example program of /repo/examples/download. *)
From Verif Require Import Base BaseFacts Floats GoVal MetricType ByteWriter Hash Units Indom Metrics Registry Prog
  Client Mmvdump View RegInv World OpRuns RegFacts WorldInv Sync FloatFacts ValueFacts MetricFacts SyncLive OpFacts VectorFacts HistFacts
  SyncView Life Parse NewFacts Example Samples SamplesFacts SamplesRun SamplesRt SamplesView FlocqFacts FloatMono.
Local Open Scope Z_scope.

(** One download: how many bytes io.Copy counted, and the clock when the timer was started and stopped. *)
Record download := mkDl { dl_bytes : Z; dl_start : Z; dl_stop : Z }.
Definition is_f64 (v : goval) : option Z := match v with VF64 z => Some z | _ => None end.
(** float64(n) / (1024 * 1024 * float64(elapsed)), /repo/examples/download/main.go:79 *)
Definition mb_per_s (n elapsed : Z) : Z := f64_div (f64_of_Z n) (f64_mul (f64_of_Z 1048576) elapsed).
(** One round of the loop, /repo/examples/download/main.go:50-53, 56-81, without the download itself. What Stop returned is read
    back from the timer: see [stop_returns]. The results of Reset and Set are ignored in the text; here a failure would end the program,
    but neither fails. *)
Definition dl_round (d : download) : list gstmt :=
  [do_call (CUpdate 2 OTReset false); do_call (CUpdate 2 (OTStart (dl_start d)) false); do_call (CUpdate 2 (OTStop (dl_stop d)) false);
   GCall (fun w => v ← read_val w 2; e ← is_f64 v; Some (CUpdate 1 (OSet (VF64 (mb_per_s (dl_bytes d) e))) false))].
(** /repo/examples/download/main.go:21-48; the speed is the metric at 1, the timer the one at 2. *)
Definition speed_unit : Z := get 0 (mu_time MegabyteUnit SecondUnit (-1)).
Definition dl_setup (loc : gostring) (gen pid : Z) : list gstmt :=
  new_client (str "download") loc ++
  [GNew 1 (NewPCPSingletonMetric (VF64 0) (str "download_speed") DoubleType InstantSemantics speed_unit []);
   GNew 2 (NewPCPTimer (str "download_time") SecondUnit []); register 2; register 1; must_start gen pid].
(** The program when the loop has gone through the downloads [ds]. *)
Definition download_prog (loc : gostring) (gen pid : Z) (ds : list download) : list gstmt :=
  dl_setup loc gen pid ++ concat (map dl_round ds).

(** ** Floats *)
Definition nnz (x : Z) : Prop := in_unsigned 64 x /\ f64_val x <> S754_zero true.
Lemma nnz_same x y : nnz x -> nnz y -> same_but_zero x y -> x = y.
Proof.
  intros [Hx Nx] [Hy Ny] [->|(s & s' & Ex & Ey)]; [reflexivity|]. destruct s; [by rewrite Ex in Nx|]. destruct s'; [by rewrite Ey in Ny|].
  apply decode_inj; auto; rewrite Ex; [by rewrite Ey|discriminate].
Qed.
Lemma zero_nnz : nnz f64_zero.
Proof. split; vm_compute; [split; [discriminate|reflexivity]|discriminate]. Qed.
Lemma add_zero y : in_unsigned 64 y -> nneg y -> f64_add f64_zero y = if f64_eqb y f64_zero then f64_zero else y.
Proof.
  intros Hy N. unfold nneg, f64_leb, f64_eqb, f64_add in *. change (f64_val f64_zero) with (S754_zero false) in *. destruct (f64_val y) as [sy|sy| |sy m e] eqn:E.
  - destruct sy; reflexivity.
  - cbn [SFadd]. replace (SFeqb (S754_infinity sy) (S754_zero false)) with false by (destruct sy; reflexivity).
    apply decode_inj; [apply (OpRuns.sf_encode_range F64); cbv; discriminate|exact Hy| |]; rewrite ?E; destruct sy; vm_compute; try reflexivity; discriminate.
  - discriminate.
  - cbn [SFadd]. replace (SFeqb (S754_finite sy m e) (S754_zero false)) with false by (destruct sy; reflexivity).
    assert (f64_val (sf_encode F64 (S754_finite sy m e)) = S754_finite sy m e) as Ev by (apply f64_encode_val; rewrite <- E; apply f64_valid; exact Hy).
    apply decode_inj; [apply (OpRuns.sf_encode_range F64); cbv; discriminate|exact Hy|by rewrite Ev|rewrite Ev; discriminate].
Qed.

Lemma double_ok v : IsCompatible DoubleType (VF64 v) = true.
Proof. cbn. unfold isCompatibleFloat. by destruct (_ && _). Qed.

(** ** Calls *)
Section upd.
  Context (w : world) (loc : gostring) (cluster : Z) (r : registry) (gen pid : Z) (mp : nat) (D : mdesc) (RU : running w loc cluster r gen pid) (Reg : registered r mp).
  Context (f : world -> option call) (mst : bool) (ss : list gstmt) (Q : world -> Prop) (Dt : md_type D = DoubleType).

  Lemma s_setf v x g : is_m w mp D MSingleton None g -> g None = Some (VF64 x) -> f w = Some (CUpdate mp (OSet (VF64 v)) mst) -> in_unsigned 64 v ->
    (forall w1 y, running w1 loc cluster r gen pid -> keeps_others w mp w1 -> is_m w1 mp D MSingleton None (one (VF64 y)) -> same_but_zero y v -> surely w1 ss Q) ->
    surely w (GCall f :: ss) Q.
  Proof using RU Reg Dt.
    intros (m & Hm & ED & Hk & Hi & Hv) Hg Hf Hw H. destruct (ru_live _ _ _ _ _ _ _ RU Reg _ Hm) as [HL Hok].
    assert (exists c, m_body m = BSingle c) as [c Hb] by (unfold m_indom in Hi; destruct (m_body m); [eauto|discriminate]).
    destruct (set_live (w_files w) m (VF64 v) c Hb HL Hw) as (fs' & m' & E); [discriminate|]. rewrite ED, Dt in E. rewrite double_ok in E.
    assert (run_op (w_files w) (w_heap w) m (OSet (VF64 v)) = Some (ROk, fs', m')) as Hrun by (unfold run_op; rewrite Hk, E; reflexivity).
    assert (op_args (w_heap w) m (OSet (VF64 v))) as Ha by exact Hw. destruct (frame_kind _ _ _ _ mst _ _ _ Hok Ha Hrun) as [E1 E2].
    assert (m_kind m' = m_kind m) as E3.
    { rewrite (m_set_eq _ _ _ _ Hb) in E by (rewrite ED, Dt; apply double_ok). destruct (store_cell _ _ _) as [[o1 fs1] c1]. injection E as _ _ <-. unfold put_cell. rewrite Hb. reflexivity. }
    eapply s_update; [exact RU|exact Hf|exact Hm|exact Ha|exact I|exact Hrun|].
    intros w1 RU1 Hin Hms. destruct (set_ok _ _ _ _ _ E) as (_ & y & Hy & Hh & Ho). rewrite ED, Dt in Hh, Ho. change (resolve DoubleType (VF64 v)) with (VF64 v) in Hh, Ho.
    assert (exists z, y = VF64 z /\ same_but_zero z v) as (z & -> & Hz).
    { destruct Hh as [->|Hh]; [exists v; split; [done|by left]|]. destruct y as [| | | | | | |z| |]; cbn in Hh; try discriminate. exists z. split; [done|].
      destruct (decide (VF64 z = VF64 v)) as [[= ->]|N]; [by left|]. specialize (Ho N). pose proof RU as [[R Hd] _ _ _].
      pose proof (f64_range _ _ _ _ (reachable_ok _ R) Hm Ho) as Rz. destruct (same_but_zero_eqb v z Hw Rz Hh) as [->|(s & s' & A & B)]; [by left|right; eauto]. }
    apply (H w1 z); auto.
    - intros mp' D' K' I' g' N M. eapply is_m_other; eauto.
    - exists m'. rewrite Hms, lookup_insert. split_and!; auto; try congruence. intros n.
      destruct n as [i|]; [|by rewrite val_at_single]. unfold val_at, cell_at. rewrite Hi in E2. unfold m_indom in E2. destruct (m_body m'); [reflexivity|discriminate].
  Qed.

  (** Reset, Start and Stop when they are allowed; [v] is the value after. *)
  Definition allowed (s : bool) (op : mop) : Prop :=
    match op with OTReset | OTStart _ => s = false | OTStop _ => s = true | _ => False end.
  Lemma s_timer op s t v : is_m w mp D (MTimer s t) None (one (VF64 v)) -> f w = Some (CUpdate mp op mst) -> allowed s op ->
    let st := timer_fold (md_unit D) mp (run_of s t, v) (w, CUpdate mp op false, ROk) in nnz v -> nnz st.2 ->
    (forall w1 s' t', running w1 loc cluster r gen pid -> keeps_others w mp w1 -> is_m w1 mp D (MTimer s' t') None (one (VF64 st.2)) -> run_of s' t' = st.1 -> surely w1 ss Q) ->
    surely w (GCall f :: ss) Q.
  Proof using RU Reg Dt.
    intros (m & Hm & ED & Hk & Hi & Hv) Hf Hal st Nv Nst H. destruct (ru_live _ _ _ _ _ _ _ RU Reg _ Hm) as [HL Hok].
    assert (m_val m = Some (VF64 v)) as Hv0 by (rewrite <- val_at_single, Hv; reflexivity).
    assert (exists c, m_body m = BSingle c) as [c Hb] by (unfold m_indom in Hi; destruct (m_body m); [eauto|discriminate]).
    assert (forall x, in_unsigned 64 x -> exists fs' m', m_set (w_files w) m (VF64 x) = (ROk, fs', m')) as ST.
    { intros x Hx. destruct (set_live (w_files w) m (VF64 x) c Hb HL Hx) as (fs' & m' & E); [discriminate|]. rewrite ED, Dt, double_ok in E. eauto. }
    assert (exists fs' m', run_op (w_files w) (w_heap w) m op = Some (ROk, fs', m') /\ (op = OTReset -> m_set (w_files w) m (VF64 f64_zero) = (ROk, fs', m'))) as (fs' & m' & Hrun & HR).
    { unfold run_op. rewrite Hk. destruct op; try (exfalso; exact Hal); cbn in Hal.
      - rewrite Hal in Hk. unfold timer_start. rewrite Hk. eexists _, _. split; [reflexivity|discriminate].
      - rewrite Hal in Hk. unfold timer_reset. rewrite Hk. destruct (ST f64_zero) as (fs' & m' & ->); [apply zero_nnz|]. eauto.
      - rewrite Hal in Hk. unfold timer_stop. rewrite Hk, Hv0. cbn [as_f64]. destruct (ST (f64_add v (timer_increment (md_unit (m_desc m)) (time_since now t)))) as (fs' & m' & ->); [apply f64_add_range|].
        eexists _, _. split; [reflexivity|discriminate]. }
    assert (op_args (w_heap w) m op /\ op_fits op) as [Ha Hfi] by (destruct op; try (exfalso; exact Hal); split; exact I).
    destruct (frame_kind _ _ _ _ mst _ _ _ Hok Ha Hrun) as [E1 E2].
    destruct (timer_one (w_heap w) (w_files w) m op false ROk fs' m' s t v w mp Hok Ha Hk Hv0 Hrun) as (s' & t' & v' & K1 & K2 & K3 & K4 & K5).
    cbn zeta in K3, K4. rewrite ED in K3, K4, K5. fold st in K3, K4, K5.
    assert (v' = st.2) as ->.
    { apply nnz_same; auto. destruct K5 as [->|[->|Er]]; auto. destruct (set_ok _ _ _ _ _ (HR Er)) as (_ & y & Hy & _ & Ho). assert (y = VF64 v') as -> by congruence.
      rewrite ED, Dt in Ho. change (resolve DoubleType (VF64 f64_zero)) with (VF64 f64_zero) in Ho. destruct (decide (VF64 v' = VF64 f64_zero)) as [Ez|N]; [injection Ez as ->; apply zero_nnz|].
      specialize (Ho N). assert (v' = v) as -> by congruence. exact Nv. }
    eapply s_update; [exact RU|exact Hf|exact Hm|exact Ha|exact Hfi|exact Hrun|].
    intros w1 RU1 Hin Hms. assert (h_metrics (w_heap w1) !! mp = Some m') as Hm1 by (rewrite Hms; apply lookup_insert).
    apply (H w1 s' t'); auto.
    - intros mp' D' K' I' g' N M. eapply is_m_other; eauto.
    - exists m'. split; [exact Hm1|]. split; [congruence|]. split; [exact K1|]. split; [congruence|]. intros n.
      destruct n as [i|]; [|by rewrite val_at_single]. unfold val_at, cell_at. rewrite Hi in E2. unfold m_indom in E2. destruct (m_body m'); [reflexivity|discriminate].
  Qed.
End upd.

(** ** The program *)
Definition sp_m : metric := get no_metric (NewPCPSingletonMetric (VF64 0) (str "download_speed") DoubleType InstantSemantics speed_unit []).
Definition tm_m : metric := get no_metric (NewPCPTimer (str "download_time") SecondUnit []).
Definition dl_hp : heap := mkHeap ∅ (<[2%nat := tm_m]> (<[1%nat := sp_m]> ∅)).
Definition dl_r1 : registry := (add_metric dl_hp new_registry 2 tm_m).2.
Definition dl_r : registry := (add_metric dl_hp dl_r1 1 sp_m).2.
(** The clock does not run backwards during a download. *)
Definition dl_ok (d : download) : Prop := dl_start d <= dl_stop d < dl_start d + 2 ^ 63.
(** d.Seconds() of the time the download took; a zero is positive. *)
Definition elapsed (d : download) : Z :=
  let s := dur_units (dl_stop d - dl_start d) 1000000000 in if f64_eqb s f64_zero then f64_zero else s.

(** The timer shows [t], the other metric [s]; [ru] is when the timer was started if it runs. *)
Definition dl_at (loc : gostring) (gen pid : Z) (t s : Z) (ru : option Z) (w : world) : Prop :=
  running w loc (hash (str "download") PCPClusterIDBitLength) dl_r gen pid /\ is_m w 1 (m_desc sp_m) MSingleton None (one (VF64 s)) /\
  (exists b since, is_m w 2 (m_desc tm_m) (MTimer b since) None (one (VF64 t)) /\ run_of b since = ru) /\ nnz t.
Lemma dl_reg : registered dl_r 1 /\ registered dl_r 2.
Proof. split; apply reg1; vm_compute; reflexivity. Qed.

Lemma dl_starts loc gen pid : surely w_init (dl_setup loc gen pid) (dl_at loc gen pid 0 0 None).
Proof.
  unfold dl_setup. eapply s_client; [exact okw_init|reflexivity|reflexivity|]. intros O1.
  change (NewPCPSingletonMetric _ _ _ _ _ _) with (Some sp_m). change (NewPCPTimer _ _ _) with (Some tm_m).
  eapply (s_new _ 1 sp_m _ _ 100); [exact O1|reflexivity|reflexivity| |].
  { eapply (cr_singleton _ _ (VF64 0) (str "download_speed") DoubleType InstantSemantics speed_unit []); [cbv; intuition discriminate|cbv; intuition discriminate|reflexivity]. }
  intros O2. eapply (s_new _ 2 tm_m _ _ 100); [exact O2|reflexivity|reflexivity| |].
  { eapply (cr_timer _ _ (str "download_time") SecondUnit []); [cbv; intuition discriminate|reflexivity]. }
  intros O3. eapply s_register with (r := new_registry) (m := tm_m) (r' := dl_r1); [exact O3|reflexivity|reflexivity|vm_compute; reflexivity|]. intros O4.
  eapply s_register with (r := dl_r1) (m := sp_m) (r' := dl_r); [exact O4|reflexivity|reflexivity|vm_compute; reflexivity|]. intros O5.
  eapply s_start with (r := dl_r); [exact O5|reflexivity|reflexivity|apply startableb_ok; vm_compute; reflexivity|].
  intros w1 RU Hi Hm. apply surely_nil. split; [exact RU|]. split; [eapply is_m_ext; [apply (Hm 1%nat sp_m); reflexivity|]; intros [i|]; reflexivity|]. split; [|apply zero_nnz].
  exists false, 0. split; [|reflexivity]. eapply is_m_ext; [apply (Hm 2%nat tm_m); reflexivity|]. intros [i|]; reflexivity.
Qed.

Section round.
  Context (loc : gostring) (gen pid : Z) (d : download) (OK : dl_ok d) (t s : Z) (ss : list gstmt) (Q : world -> Prop).
  Lemma dl_timer op ru w x : dl_at loc gen pid t s ru w -> allowed (if ru then true else false) op ->
    timer_fold SecondUnit 2 (ru, t) (w, CUpdate 2 op false, ROk) = x -> nnz x.2 ->
    (forall w1, dl_at loc gen pid x.2 s x.1 w1 -> surely w1 ss Q) -> surely w (do_call (CUpdate 2 op false) :: ss) Q.
  Proof using.
    intros (RU & M1 & (b & since & M2 & Eb) & Nt) Al Ex Nx H.
    assert ((if ru then true else false) = b) as Eb' by (destruct b; cbn in Eb; subst ru; reflexivity). rewrite Eb' in Al.
    assert (timer_fold (md_unit (m_desc tm_m)) 2 (run_of b since, t) (w, CUpdate 2 op false, ROk) = x) as Ex' by (rewrite Eb; exact Ex).
    eapply (s_timer w loc _ dl_r gen pid 2 (m_desc tm_m) RU (proj2 dl_reg) _ false ss Q eq_refl op b since t M2 eq_refl Al Nt); rewrite Ex'; [exact Nx|].
    intros w1 s' t' RU1 KO M2' Er. apply H. split; [exact RU1|]. split; [apply KO; [discriminate|exact M1]|]. split; [|exact Nx]. exists s', t'. auto.
  Qed.
End round.

Lemma second_increment x : timer_increment SecondUnit x = dur_units x 1000000000.
Proof. reflexivity. Qed.
Local Opaque timer_increment dur_units f64_add.
Lemma fold_reset w t ru : timer_fold SecondUnit 2 (ru, t) (w, CUpdate 2 OTReset false, ROk) = (ru, f64_zero).
Proof. reflexivity. Qed.
Lemma fold_start w t ru now : timer_fold SecondUnit 2 (ru, t) (w, CUpdate 2 (OTStart now) false, ROk) = (Some now, t).
Proof. reflexivity. Qed.
Lemma fold_stop w d : dl_ok d -> timer_fold SecondUnit 2 (Some (dl_start d), f64_zero) (w, CUpdate 2 (OTStop (dl_stop d)) false, ROk) = (None, elapsed d).
Proof.
  intros OK. unfold timer_fold. rewrite decide_True by reflexivity. cbn [fst snd]. f_equal. unfold dl_ok in OK.
  assert (time_since (dl_stop d) (dl_start d) = dl_stop d - dl_start d) as -> by (unfold time_since; lia).
  rewrite add_zero; [rewrite second_increment; unfold elapsed; reflexivity|apply timer_increment_range|apply timer_increment_nneg; lia].
Qed.
Lemma elapsed_nnz d : nnz (elapsed d).
Proof.
  unfold elapsed. cbn zeta. set (x := dur_units _ _). assert (in_unsigned 64 x) as R by (unfold x; rewrite <- second_increment; apply timer_increment_range). destruct (f64_eqb x f64_zero) eqn:E; [apply zero_nnz|]. split; [exact R|].
  intros Ez. unfold f64_eqb in E. rewrite Ez in E. discriminate.
Qed.

(** What Stop returns is what the timer then holds. *)
Lemma stop_returns hp fs m d fs' m' e : metric_ok hp m -> dl_ok d -> md_unit (m_desc m) = SecondUnit -> m_kind m = MTimer true (dl_start d) -> m_val m = Some (VF64 f64_zero) ->
  timer_stop fs m (dl_stop d) = (ROk, fs', m', e) -> e = elapsed d /\ m_val m' = Some (VF64 e).
Proof.
  intros Hok OK Hu Hk Hv H. assert (e = elapsed d) as ->.
  { unfold timer_stop in H. rewrite Hk, Hv in H. cbn [as_f64] in H. rewrite Hu in H. destruct (m_set fs m _) as [[[| | |] fs1] m1]; try discriminate. injection H as _ _ <-.
    pose proof (fold_stop w_init d OK) as E. unfold timer_fold in E. rewrite decide_True in E by reflexivity. cbn [fst snd] in E. injection E as E. exact E. }
  split; [reflexivity|].
  assert (run_op fs hp m (OTStop (dl_stop d)) = Some (ROk, fs', m')) as Hr by (unfold run_op; rewrite Hk, H; reflexivity).
  destruct (timer_one hp fs m (OTStop (dl_stop d)) false ROk fs' m' true (dl_start d) f64_zero w_init 2 Hok I Hk Hv Hr) as (s' & t' & v' & K1 & K2 & K3 & K4 & K5).
  rewrite Hu in K4, K5. cbn zeta in K4. change (run_of true (dl_start d)) with (Some (dl_start d)) in K4, K5. rewrite (fold_stop w_init d OK) in K4, K5. cbn [snd] in K4, K5.
  rewrite K2. do 2 f_equal. apply nnz_same; [|apply elapsed_nnz|exact K4]. destruct K5 as [->|[->|K5]]; [apply zero_nnz|apply elapsed_nnz|discriminate].
Qed.

(** The last download finished, if any, is what the values are of. *)
Definition speed_of (l : option download) (s : Z) : Prop :=
  match l with Some d => same_but_zero s (mb_per_s (dl_bytes d) (elapsed d)) | None => s = 0 end.
Definition time_of (l : option download) : Z := match l with Some d => elapsed d | None => 0 end.

Lemma f64_div_range x y : in_unsigned 64 (f64_div x y).
Proof. apply (OpRuns.sf_encode_range F64); cbv; discriminate. Qed.

Lemma mb_range n e : in_unsigned 64 (mb_per_s n e).
Proof. apply f64_div_range. Qed.
Local Opaque elapsed mb_per_s.
Section stages.
  Context (loc : gostring) (gen pid : Z) (d : download) (OK : dl_ok d) (t s : Z).
  (** The values after the first [j] statements of the round. *)
  Definition stage (j : nat) (w : world) : Prop :=
    match j with
    | O => dl_at loc gen pid t s None w
    | 1%nat => dl_at loc gen pid f64_zero s None w
    | 2%nat => dl_at loc gen pid f64_zero s (Some (dl_start d)) w
    | 3%nat => dl_at loc gen pid (elapsed d) s None w
    | _ => exists s', dl_at loc gen pid (elapsed d) s' None w /\ speed_of (Some d) s'
    end.
  Lemma dl_stage w j ss (Q : world -> Prop) : dl_at loc gen pid t s None w -> (j <= 4)%nat -> (forall w1, stage j w1 -> surely w1 ss Q) -> surely w (take j (dl_round d) ++ ss) Q.
  Proof using OK.
    intros A Hj H. destruct j as [|j]; [apply H; exact A|]. cbn [dl_round take app].
    eapply dl_timer; [exact A|reflexivity|apply fold_reset|apply zero_nnz|]. clear w A. intros w A. cbn [fst snd] in A.
    destruct j as [|j]; [apply H; exact A|]. cbn [take app].
    eapply dl_timer; [exact A|reflexivity|apply fold_start|apply zero_nnz|]. clear w A. intros w A. cbn [fst snd] in A.
    destruct j as [|j]; [apply H; exact A|]. cbn [take app].
    eapply dl_timer; [exact A|reflexivity|apply fold_stop, OK|apply elapsed_nnz|]. clear w A. intros w A. cbn [fst snd] in A.
    destruct j as [|j]; [apply H; exact A|]. cbn [take app]. replace j with 0%nat in * by lia. cbn [take app].
    pose proof A as (RU & M1 & (b & since & M2 & Eb) & Nt).
    assert (read_val w 2 = Some (VF64 (elapsed d))) as Rv.
    { destruct M2 as (m & Hm & _ & _ & _ & Hv). unfold read_val. rewrite Hm. cbn. rewrite <- val_at_single, Hv. reflexivity. }
    eapply (s_setf w loc _ dl_r gen pid 1 (m_desc sp_m) RU (proj1 dl_reg) _ false ss Q eq_refl (mb_per_s (dl_bytes d) (elapsed d)) s); [exact M1|reflexivity|rewrite Rv; reflexivity|apply mb_range|].
    intros w1 y RU1 KO M1' Sy. apply H. exists y. split; [|exact Sy]. split; [exact RU1|]. split; [exact M1'|]. split; [|exact Nt]. exists b, since. split; [apply KO; [discriminate|exact M2]|exact Eb].
  Qed.
End stages.

Lemma dl_all loc gen pid ds : forall w l s, Forall dl_ok ds -> dl_at loc gen pid (time_of l) s None w -> speed_of l s ->
  surely w (concat (map dl_round ds)) (fun w' => exists s', dl_at loc gen pid (time_of (match last ds with Some d => Some d | None => l end)) s' None w' /\ speed_of (match last ds with Some d => Some d | None => l end) s').
Proof.
  induction ds as [|d ds IH]; intros w l s F A Sp; [apply surely_nil; eauto|]. apply Forall_cons in F as [OK F]. cbn [map concat].
  change (dl_round d) with (take 4 (dl_round d)). eapply dl_stage; [exact OK|exact A|lia|]. intros w1 (s' & A' & Sp').
  specialize (IH w1 (Some d) s' F A' Sp'). eapply surely_mono; [exact IH|]. intros w'. cbn beta. rewrite last_cons. destruct (last ds); auto.
Qed.
Lemma dl_runs loc gen pid ds : Forall dl_ok ds -> surely w_init (download_prog loc gen pid ds) (fun w => exists s, dl_at loc gen pid (time_of (last ds)) s None w /\ speed_of (last ds) s).
Proof.
  intros F. unfold download_prog. eapply surely_app; [apply dl_starts|]. intros w A. eapply surely_mono; [exact (dl_all loc gen pid ds w None 0 F A eq_refl)|].
  intros w' (s & K1 & K2). exists s. destruct (last ds); auto.
Qed.
Lemma dl_prefix loc gen pid ds d j : Forall dl_ok ds -> dl_ok d -> (j <= 4)%nat -> surely w_init (download_prog loc gen pid ds ++ take j (dl_round d))
  (fun w => exists s, speed_of (last ds) s /\ stage loc gen pid d (time_of (last ds)) s j w).
Proof.
  intros F OK Hj. eapply surely_app; [apply dl_runs, F|]. intros w (s & A & Sp). rewrite <- (app_nil_r (take j _)). eapply dl_stage; [exact OK|exact A|exact Hj|].
  intros w1 K. apply surely_nil. eauto.
Qed.
Lemma dl_shows loc gen pid t s ru w : dl_at loc gen pid t s ru w ->
  let sp := want_metric false (m_desc sp_m) None in let tm := want_metric false (m_desc tm_m) None in
  file_shows w loc (str "download") 1 2 gen pid (mkView [] [] [sp; tm] [mkVV sp None (VF64 s); mkVV tm None (VF64 t)]).
Proof.
  intros (RU & M1 & (b & since & M2 & _) & _) sp tm. assert (tocCount dl_r = 2) as Et by (vm_compute; reflexivity). rewrite <- Et. eapply (running_shows _ _ _ _ _ _ _ RU).
  pose proof M1 as (m1 & H1 & _). pose proof M2 as (m2 & H2 & _).
  destruct (values_single _ _ _ _ _ (VF64 s) false _ M1 eq_refl H1) as [V1 W1]. destruct (values_single _ _ _ _ _ (VF64 t) false _ M2 eq_refl H2) as [V2 W2].
  assert ((map_to_list (r_metrics dl_r)).*2 ≡ₚ [1%nat; 2%nat]) as P by (apply (bool_decide_eq_true_1 _); vm_compute; reflexivity).
  assert (map_to_list (r_indoms dl_r) = []) as Ei by (vm_compute; reflexivity). assert (r_version2 dl_r = false) as Ev by reflexivity.
  unfold want_view, reg_indoms, reg_metrics. rewrite Ei, Ev. cbn [fmap list_fmap omap list_omap map concat].
  split; [reflexivity|]. split; [reflexivity|]. split.
  - cbn [v_metrics]. rewrite P. cbn. rewrite H1, H2. cbn. by rewrite V1, V2.
  - cbn [v_values]. rewrite P. cbn. rewrite H1, H2. cbn. by rewrite W1, W2.
Qed.
