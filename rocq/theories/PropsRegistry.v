(** C26, C27, C29 - C35: identifiers, registration and the registry's counts.
    Specification vocabulary: RegSteps.v ([fnv32]: FNV-1a on 32 bits; [registers], [stops]: which
    calls register in or stop a client of a registry; [linked]; [plain], [info]: a view without
    padding of names), View.v ([reg_metrics], [reg_indoms]: the registered objects; [spec_instances],
    [spec_values], [spec_texts], [spec_long]: counts computed from them). *)
From Verif Require Import Base BaseFacts Floats GoVal MetricType ByteWriter Hash Units Indom Metrics Registry Prog
  Client Mmvdump Ileave ProgProofs Exec Events StartEvents BufFacts Tiling StartGood StartLayout StartFinal StartDone
  View Sections StartView RegInv Update World OpRuns RegFacts WorldInv Sync StartLive FloatFacts ValueFacts MetricFacts SyncLive SyncView
  Life Example Witness RegSteps RegWitness PropsStart.

(** ** C26 *)
(** Every string has exactly one hash. *)
Theorem C26_hash_function s : exists h, fnv32 s h /\ forall h', fnv32 s h' -> h' = h.
Proof. exists (fnv1a s). split; [apply fnv1a_spec|]. intros h' H. by eapply fnv32_det; [apply fnv1a_spec|]. Qed.
Theorem C26_metric_ids w mp m : reachable w -> h_metrics (w_heap w) !! mp = Some m -> exists h, fnv32 (md_name (m_desc m)) h /\ md_id (m_desc m) = h mod 2 ^ 10.
Proof.
  intros R H. exists (fnv1a (md_name (m_desc m))). split; [apply fnv1a_spec|].
  rewrite (do_id _ (mo_desc _ _ (ho_metrics _ (wo_heap _ (reachable_ok _ R)) _ _ H))). by apply hash_spec.
Qed.
Theorem C26_indom_ids w ip d : reachable w -> h_indoms (w_heap w) !! ip = Some d -> (exists h, fnv32 (id_name d) h /\ id_id d = h mod 2 ^ 22) /\
  (forall n i, id_insts d !! n = Some i -> fnv32 n i).
Proof.
  intros R H. pose proof (ho_indoms _ (wo_heap _ (reachable_ok _ R)) _ _ H) as D. split.
  - exists (fnv1a (id_name d)). split; [apply fnv1a_spec|]. rewrite (io_id _ D). by apply hash_spec.
  - intros n i Hi. destruct (io_insts _ D _ _ Hi) as [-> _]. apply fnv1a_spec.
Qed.
Theorem C26_cluster_ids w cid name loc rid o w1 tr w2 : wstep w (CNewClient cid name loc rid) o w1 -> hist w1 tr w2 ->
  exists c h, w_clients w2 !! cid = Some c /\ fnv32 name h /\ cl_cluster c = h mod 2 ^ 12.
Proof.
  intros S H. assert (exists c, w_clients w1 !! cid = Some c /\ cl_cluster c = fnv1a name mod 2 ^ 12) as (c & Hc & E).
  { inversion S; subst. cbn [w_clients]. rewrite lookup_insert. eexists. split; [reflexivity|]. by apply hash_spec. }
  clear S. revert c Hc E. induction H as [w1|w1 cl o1 w3 tr w2 S H IH]; intros c Hc E; [exists c, (fnv1a name); split_and!; auto; apply fnv1a_spec|].
  destruct (step_cluster _ _ _ _ _ _ S Hc) as (c' & Hc' & E1 & _). apply (IH c' Hc'). congruence.
Qed.
(** Published test vectors of FNV-1a. *)
Example C26_ex : fnv32 [] 0x811c9dc5 /\ fnv32 (str "a") 0xe40c292c /\ fnv32 (str "foobar") 0xbf9cf968 /\ reachable exw /\
  h_metrics (w_heap exw) !! 1%nat = Some ex_counter /\ md_id (m_desc (wit_cnt (str "foobar"))) = 0x168.
Proof.
  split_and!; [apply (fnv1a_spec [])|..].
  - assert (fnv1a (str "a") = 0xe40c292c) as <- by (vm_compute; reflexivity). apply fnv1a_spec.
  - assert (fnv1a (str "foobar") = 0xbf9cf968) as <- by (vm_compute; reflexivity). apply fnv1a_spec.
  - exact exw_reachable.
  - rewrite exw_metric. vm_compute. reflexivity.
  - vm_compute. reflexivity.
Qed.

(** ** C27 *)
(** Two metrics of one registry with different names and the same id. *)
Theorem C27_distinct_ids_refuted : exists w rid r mp1 mp2 m1 m2, reachable w /\ w_regs w !! rid = Some r /\
  r_metrics r !! md_name (m_desc m1) = Some mp1 /\ r_metrics r !! md_name (m_desc m2) = Some mp2 /\ h_metrics (w_heap w) !! mp1 = Some m1 /\
  h_metrics (w_heap w) !! mp2 = Some m2 /\ md_name (m_desc m1) <> md_name (m_desc m2) /\ md_id (m_desc m1) = md_id (m_desc m2).
Proof.
  exists wit_c, 0%nat, wit_cr, 1%nat, 2%nat, (wit_cnt (str "net.out")), (wit_cnt (str "m82")). split_and!; [exact wit_c_reachable|exact wit_cr_eq|..]; vm_compute; congruence.
Qed.
(** It cannot be avoided with more than 1024 metrics. *)
Theorem C27_pigeonhole w rid r : reachable w -> w_regs w !! rid = Some r -> 1024 < MetricCount r ->
  exists mp1 mp2 m1 m2, r_metrics r !! md_name (m_desc m1) = Some mp1 /\ r_metrics r !! md_name (m_desc m2) = Some mp2 /\ h_metrics (w_heap w) !! mp1 = Some m1 /\
  h_metrics (w_heap w) !! mp2 = Some m2 /\ md_name (m_desc m1) <> md_name (m_desc m2) /\ md_id (m_desc m1) = md_id (m_desc m2).
Proof.
  intros R Hr Hc. pose proof (reachable_ok _ R) as W. pose proof (wo_regs _ W _ _ Hr) as Hro. unfold MetricCount in Hc.
  destruct (too_many_metrics (r_metrics r) (fun n => fnv1a n mod 2 ^ 10) 1024) as (n1 & n2 & N & [mp1 H1] & [mp2 H2] & E).
  - lia.
  - intros n _. change (Z.of_nat 1024) with (2 ^ 10). apply Z.mod_pos_bound. lia.
  - destruct (ro_metrics _ _ Hro _ _ H1) as (m1 & Hm1 & E1). destruct (ro_metrics _ _ Hro _ _ H2) as (m2 & Hm2 & E2). exists mp1, mp2, m1, m2.
    rewrite E1, E2. split_and!; auto. destruct (C26_metric_ids _ _ _ R Hm1) as (h1 & F1 & ->). destruct (C26_metric_ids _ _ _ R Hm2) as (h2 & F2 & ->).
    rewrite E1 in F1. rewrite E2 in F2. rewrite <- (fnv32_det _ _ F1 _ (fnv1a_spec _)), <- (fnv32_det _ _ F2 _ (fnv1a_spec _)). exact E.
Qed.
(** The ids differ exactly when the hashes differ modulo 1024. *)
Theorem C27_distinct_ids_partial w mp1 mp2 m1 m2 h1 h2 : reachable w -> h_metrics (w_heap w) !! mp1 = Some m1 -> h_metrics (w_heap w) !! mp2 = Some m2 ->
  fnv32 (md_name (m_desc m1)) h1 -> fnv32 (md_name (m_desc m2)) h2 -> md_id (m_desc m1) = md_id (m_desc m2) <-> h1 mod 1024 = h2 mod 1024.
Proof.
  intros R H1 H2 F1 F2. destruct (C26_metric_ids _ _ _ R H1) as (h1' & G1 & ->). destruct (C26_metric_ids _ _ _ R H2) as (h2' & G2 & ->).
  by rewrite (fnv32_det _ _ F1 _ G1), (fnv32_det _ _ F2 _ G2).
Qed.
Example C27_ex : md_id (m_desc ex_counter) <> md_id (m_desc ex_string) /\ md_id (m_desc (wit_cnt (str "net.out"))) = 1014 /\ md_id (m_desc (wit_cnt (str "m82"))) = 1014.
Proof. vm_compute. repeat split; congruence. Qed.

(** ** C29 *)
Theorem C29_counts w rid r : reachable w -> w_regs w !! rid = Some r ->
  let hp := w_heap w in
  MetricCount r = zlen (reg_metrics hp r) /\ InstanceDomainCount r = zlen (reg_indoms hp r) /\ InstanceCount r = spec_instances hp r /\
  ValuesCount r = spec_values hp r /\
  (spec_long hp r -> StringCount r = spec_texts hp r + zlen (reg_metrics hp r) + spec_instances hp r) /\
  (~ spec_long hp r -> StringCount r = spec_texts hp r).
Proof.
  intros R Hr hp. pose proof (wo_regs _ (reachable_ok _ R) _ _ Hr) as Hro. fold hp in Hro.
  rewrite (reg_metrics_count _ _ Hro), (reg_indoms_count _ _ Hro). unfold StringCount, ValuesCount, InstanceCount.
  rewrite <- (ro_ic _ _ Hro), <- (ro_vc _ _ Hro), <- (ro_sc _ _ Hro). pose proof (ro_v2 _ _ Hro) as V. split_and!; auto.
  - intros L. apply V in L as ->. reflexivity.
  - intros L. destruct (r_version2 r); [|reflexivity]. destruct L. by apply V.
Qed.
Example C29_ex : reachable exw /\ w_regs exw !! 0%nat = Some exr /\ MetricCount exr = 8 /\ InstanceDomainCount exr = 3 /\ InstanceCount exr = 9 /\ ValuesCount exr = 15 /\ StringCount exr = 6.
Proof. split_and!; [exact exw_reachable|exact exw_reg|..]; vm_compute; reflexivity. Qed.

(** ** C30 *)
Theorem C30_metric_name_taken w rid mp o w' r m mp0 : reachable w -> w_regs w !! rid = Some r -> h_metrics (w_heap w) !! mp = Some m ->
  r_metrics r !! md_name (m_desc m) = Some mp0 -> wstep w (CAddMetric rid mp) o w' -> o = RErr /\ w_regs w' = w_regs w.
Proof.
  intros R Hr Hm Hn S. assert (o <> ROk) as No.
  { inversion S as [| | | |? ? ? r0 m0 ? r' Hd Hr0 Hm0 Ha| | | | | | | | | | |]; subst. assert (r0 = r) as -> by congruence. assert (m0 = m) as -> by congruence.
    intros ->. unfold add_metric, HasMetric in Ha. rewrite Hn in Ha. rewrite bool_decide_true in Ha by eauto. destruct (r_mapped r); discriminate. }
  pose proof (reachable_ok _ R) as W. split.
  - destruct (reg_call_next _ _ _ _ _ _ W S eq_refl Hr) as (r' & _ & N). destruct (rn_o _ _ _ _ _ N); tauto.
  - eapply (object_err w rid (CAddMetric rid mp)); [exact W|exact S|exact Hr|reflexivity|exact No|discriminate].
Qed.
Theorem C30_indom_name_taken w rid cl n ip0 o w' r : reachable w -> w_regs w !! rid = Some r -> r_indoms r !! n = Some ip0 ->
  (exists ip d, cl = CAddIndom rid ip /\ h_indoms (w_heap w) !! ip = Some d /\ id_name d = n) \/ (exists ip insts, cl = CAddIndomByName rid ip n insts) ->
  wstep w cl o w' -> o = RErr /\ w_regs w' = w_regs w.
Proof.
  intros R Hr Hn Hcl S. pose proof (reachable_ok _ R) as W. assert (registers rid cl) as HR by (destruct Hcl as [(ip & d & -> & _)|(ip & i & ->)]; reflexivity).
  assert (o <> ROk) as No.
  { destruct Hcl as [(ip & d & -> & Hd & <-)|(ip & i & ->)].
    - inversion S as [| | | | |? ? ? r0 d0 ? Hr0 Hd0| | | | | | | | | |]; subst. assert (r0 = r) as -> by congruence. assert (d0 = d) as -> by congruence.
      unfold add_indom, HasInstanceDomain. rewrite Hn, bool_decide_true by eauto. discriminate.
    - inversion S as [| | | | | |? ? ? ? ? r0 ? ? r' ? Hr0 Hi Ha| | | | | | | | |]; subst. assert (r0 = r) as -> by congruence. intros ->.
      unfold add_indom_by_name, HasInstanceDomain in Ha. rewrite Hn, bool_decide_true in Ha by eauto. discriminate. }
  split.
  - destruct (reg_call_next _ _ _ _ _ _ W S HR Hr) as (r' & _ & N). destruct (rn_o _ _ _ _ _ N); tauto.
  - eapply object_err; eauto. destruct Hcl as [(ip & d & -> & _)|(ip & i & ->)]; discriminate.
Qed.
Theorem C30_by_string_name_taken w rid mp ip name indom insts val t s u o w' r mp0 : reachable w -> w_regs w !! rid = Some r -> r_metrics r !! name = Some mp0 ->
  wstep w (CAddByString rid mp ip name indom insts val t s u) o w' -> o = RErr /\ exists r', w_regs w' !! rid = Some r' /\ r_metrics r' = r_metrics r.
Proof.
  intros R Hr Hn S. pose proof (reachable_ok _ R) as W.
  destruct (reg_call_next _ rid _ _ _ _ W S eq_refl Hr) as (r' & E & N).
  inversion S as [| | | | | | |? ? ? ? ? ? ? ? ? ? ? ord r0 ? hp' r1 Hd Hr0 Hmp Hip Hv Hda Hord Ha| | | | | | | |]; subst. assert (r0 = r) as -> by congruence.
  cbn [w_regs] in E. assert (r1 = r') as -> by (apply (f_equal (lookup rid)) in E; rewrite !lookup_insert in E; congruence).
  pose proof (by_string_dup _ _ _ _ _ _ _ _ _ _ _ _ _ _ _ _ Hda Ha Hn) as No. split; [destruct (rn_o _ _ _ _ _ N); tauto|].
  exists r'. cbn [w_regs]. rewrite lookup_insert. split; [done|].
  destruct (by_string_err _ _ _ _ _ _ _ _ _ _ _ _ _ _ _ (wo_heap _ W) (wo_regs _ W _ _ Hr) Hmp Hip Hord Hv Hda Ha No) as [->|(d & _ & _ & A)]; [done|].
  unfold add_indom in A. repeat case_match; simplify_eq; reflexivity.
Qed.
(** Once registered, always registered, with the same object. *)
Theorem C30_forever w rid r tr w' : reachable w -> w_regs w !! rid = Some r -> hist w tr w' -> exists r', w_regs w' !! rid = Some r' /\
  (forall n mp, r_metrics r !! n = Some mp -> r_metrics r' !! n = Some mp) /\ (forall n ip, r_indoms r !! n = Some ip -> r_indoms r' !! n = Some ip).
Proof.
  intros R Hr H. destruct (hist_keeps _ _ _ _ _ (reachable_ok _ R) H Hr) as (r' & E & A & B). exists r'. split; [exact E|].
  split; intros n p Hn; [by apply (lookup_weaken _ _ _ _ Hn)|by apply (lookup_weaken _ _ _ _ Hn)].
Qed.
Example C30_ex : exists o w', reachable exw /\ w_regs exw !! 0%nat = Some exr /\ r_metrics exr !! md_name (m_desc ex_counter) = Some 1%nat /\
  h_metrics (w_heap exw) !! 1%nat = Some ex_counter /\ wstep exw (CAddMetric 0 1) o w'.
Proof.
  assert (h_metrics (w_heap exw) !! 1%nat = Some ex_counter) as Hm by (rewrite exw_metric; vm_compute; reflexivity).
  destruct (add_metric (w_heap exw) exr 1 ex_counter) as [o r'] eqn:Ea. eexists o, _. split_and!; [exact exw_reachable|exact exw_reg|vm_compute; reflexivity|exact Hm|].
  eapply ws_add_metric; [exact exw_dead|exact exw_reg|exact Hm|exact Ea].
Qed.

(** ** C31 *)
Theorem C31_frozen w cid c r gen pid w1 tr w2 : reachable w -> w_clients w !! cid = Some c -> w_regs w !! cl_reg c = Some r ->
  wstep w (CStart cid gen pid true) ROk w1 -> phist (fun w cl => ~ stops w (cl_reg c) cl) w1 tr w2 ->
  w_regs w2 !! cl_reg c = Some (set_mapped r true) /\ Forall (fun x => registers (cl_reg c) x.1.2 -> x.2 = RErr) tr.
Proof.
  intros R Hc Hr S H. pose proof (reachable_ok _ R) as W. pose proof (wstep_ok _ _ _ _ W S) as W1.
  assert (w_regs w1 !! cl_reg c = Some (set_mapped r true)) as Hr1.
  { inversion S as [| | | | | | | | |? ? ? ? c0 r0 wr ino s Hd Hc0 Hr0 Hw Hi SR| | | | | |]; subst. assert (c0 = c) as -> by congruence. assert (r0 = r) as -> by congruence.
    unfold started. cbn [w_regs]. apply lookup_insert. }
  exact (mapped_hist _ _ _ _ _ W1 H Hr1 eq_refl).
Qed.
(** The same, whatever made the registry mapped. *)
Theorem C31_frozen_while_mapped w rid r tr w' : reachable w -> w_regs w !! rid = Some r -> r_mapped r = true -> phist (fun w cl => ~ stops w rid cl) w tr w' ->
  w_regs w' !! rid = Some r /\ Forall (fun x => registers rid x.1.2 -> x.2 = RErr) tr.
Proof. intros R Hr Hm H. exact (mapped_hist _ _ _ _ _ (reachable_ok _ R) H Hr Hm). Qed.
(** After the Start of the example process, an attempt to register one more metric. *)
Example C31_ex : exists w1 o w2, reachable exw /\ w_clients exw !! 0%nat = Some exc /\ w_regs exw !! cl_reg exc = Some exr /\
  wstep exw (CStart 0 ex_gen ex_pid true) ROk w1 /\ phist (fun w cl => ~ stops w (cl_reg exc) cl) w1 [(w1, CAddIndom (cl_reg exc) 0, o)] w2.
Proof.
  assert (h_indoms (w_heap exw) !! 0%nat = Some histogramIndom) as Hd by (vm_compute; reflexivity).
  destruct (started_add exw 0 exc exr 0 0 ex_gst 0 _ Hd) as (o & w2 & H). exists exs, o, w2.
  split; [exact exw_reachable|]. split; [exact exw_client|]. split; [exact exw_reg|]. split; [exact exs_step|]. unfold exs. exact H.
Qed.

(** ** C32 *)
(** AddMetricByString may fail and leave the domain it created behind. *)
Theorem C32_by_string_refuted : exists w rid mp ip name indom insts val t s u w' r r', reachable w /\
  wstep w (CAddByString rid mp ip name indom insts val t s u) RErr w' /\ w_regs w !! rid = Some r /\ w_regs w' !! rid = Some r' /\
  InstanceDomainCount r = 0 /\ InstanceCount r = 0 /\ InstanceDomainCount r' = 1 /\ InstanceCount r' = 2.
Proof.
  eexists wit1, 0%nat, _, _, _, _, _, _, _, _, _, wit_b, new_registry, wit_bs.2. split_and!; [exact wit1_reachable|exact wit_b_step|reflexivity|..]; vm_compute; reflexivity.
Qed.
(** The other three have no effect when they fail; no registry at all changes. *)
Theorem C32_no_effect_partial w rid cl o w' r : reachable w -> wstep w cl o w' -> w_regs w !! rid = Some r -> registers rid cl -> o <> ROk ->
  (forall r mp ip name indom insts val t s u, cl <> CAddByString r mp ip name indom insts val t s u) -> w_regs w' = w_regs w.
Proof. intros R. apply object_err, reachable_ok, R. Qed.
(** A failing AddMetricByString changes at most the domains, and only by adding the named one, which was not there before. *)
Theorem C32_by_string_partial w rid mp ip name indom insts val t s u o w' r : reachable w -> wstep w (CAddByString rid mp ip name indom insts val t s u) o w' ->
  w_regs w !! rid = Some r -> o <> ROk ->
  w_regs w' = w_regs w \/
  (r_indoms r !! indom = None /\ exists r', w_regs w' = <[rid := r']> (w_regs w) /\ r_metrics r' = r_metrics r /\ r_indoms r' = <[indom := ip]> (r_indoms r)).
Proof.
  intros R S Hr No. pose proof (reachable_ok _ R) as W.
  inversion S as [| | | | | | |? ? ? ? ? ? ? ? ? ? ? ord r0 ? hp' r1 Hd Hr0 Hmp Hip Hv Hda Hord Ha| | | | | | | |]; subst. assert (r0 = r) as -> by congruence. cbn [w_regs].
  destruct (by_string_err _ _ _ _ _ _ _ _ _ _ _ _ _ _ _ (wo_heap _ W) (wo_regs _ W _ _ Hr) Hmp Hip Hord Hv Hda Ha No) as [->|(d & A1 & A2 & A3)]; [left; by apply insert_id|right].
  split; [exact A1|]. exists r1. split; [reflexivity|]. unfold add_indom in A3. repeat case_match; simplify_eq; auto.
Qed.
Example C32_ex : exists w', reachable exw /\ wstep exw (CAddIndom 0 1) RErr w' /\ w_regs exw !! 0%nat = Some exr.
Proof.
  assert (h_indoms (w_heap exw) !! 1%nat = Some ex_cv.1) as Hd by (vm_compute; reflexivity).
  assert (add_indom exr 1 ex_cv.1 = None) as E by (vm_compute; reflexivity).
  destruct (add_indom_fails exw 0 1 exr ex_cv.1 exw_dead exw_reg Hd E) as [w' S]. exists w'. split; [exact exw_reachable|]. split; [exact S|exact exw_reg].
Qed.

(** ** C33 *)
Theorem C33_version w cid c r gen pid w' : reachable w -> w_clients w !! cid = Some c -> w_regs w !! cl_reg c = Some r ->
  startable (w_heap w) r -> wstep w (CStart cid gen pid true) ROk w' ->
  exists buf d, file_of w' c = Some buf /\ Dump buf = DOk d /\
    (spec_long (w_heap w) r -> hd_version (du_header d) = 2) /\ (~ spec_long (w_heap w) r -> hd_version (du_header d) = 1).
Proof.
  intros R Hc Hr Hs S. destruct (C01_start_publishes _ _ _ _ _ _ _ R Hc Hr Hs S) as (buf & Hf & (d & HD & Hh & _) & _). exists buf, d.
  split_and!; auto; rewrite Hh; cbn [hd_version want_hdr]; pose proof (ro_v2 _ _ (wo_regs _ (reachable_ok _ R) _ _ Hr)) as V.
  - intros L. apply V in L as ->. reflexivity.
  - intros L. destruct (r_version2 r); [|reflexivity]. destruct L. by apply V.
Qed.
(** What a reader recovers, taking names as C strings, is [info] of the registered objects: no version in it. *)
Theorem C33_information w cid c r gen pid w' : reachable w -> w_clients w !! cid = Some c -> w_regs w !! cl_reg c = Some r ->
  startable (w_heap w) r -> wstep w (CStart cid gen pid true) ROk w' ->
  exists buf d V, file_of w' c = Some buf /\ Dump buf = DOk d /\ shows d V /\ plain V = info (w_heap w) (reg_indoms (w_heap w) r) (reg_metrics (w_heap w) r).
Proof.
  intros R Hc Hr Hs S. destruct (C01_start_publishes _ _ _ _ _ _ _ R Hc Hr Hs S) as (buf & Hf & (d & HD & _ & Hsh) & _).
  exists buf, d, (want_view (w_heap w) r). split_and!; auto. apply plain_want.
Qed.
(** A name of 64 bytes makes a version 2 file, one of 63 bytes does not; names without NUL are recovered exactly. *)
Example C33_ex : r_version2 (add_metric (w_heap wit1) new_registry 1 (wit_cnt (long_text 63))).2 = false /\
  r_version2 (add_metric (w_heap wit1) new_registry 1 (wit_cnt (long_text 64))).2 = true /\
  cstr (padded 64 (str "net.out")) = str "net.out" /\ cstr (padded 256 (str "net.out")) = str "net.out".
Proof. vm_compute. auto. Qed.

(** ** C34 *)
(** The list [a; a] matches the domain {a, b}. *)
Theorem C34_set_equality_refuted : exists d ins n, new_indom (str "dom") [str "a"; str "b"] [] = Some d /\ match_instances d ins = true /\
  is_Some (id_insts d !! n) /\ n ∉ ins.
Proof.
  exists (get no_indom (new_indom (str "dom") [str "a"; str "b"] [])), [str "a"; str "a"], (str "b"). split_and!; [apply get_some; reflexivity|vm_compute; reflexivity|..].
  - eapply mk_is_Some. vm_compute. reflexivity.
  - intros H. apply elem_of_cons in H as [H|H]; [revert H; vm_compute; congruence|]. apply elem_of_list_singleton in H. revert H; vm_compute; congruence.
Qed.
(** Without repetitions in the list it is set equality; in general it is: same length, and every listed name is an instance. *)
Theorem C34_set_equality_partial d ins : NoDup ins -> match_instances d ins = true <-> (forall n, n ∈ ins <-> is_Some (id_insts d !! n)).
Proof. apply match_nodup. Qed.
Theorem C34_subset d ins : match_instances d ins = true <-> zlen ins = Z.of_nat (size (id_insts d)) /\ forall n, n ∈ ins -> is_Some (id_insts d !! n).
Proof. apply match_instances_spec. Qed.
(** The call fails when the listed names are not the instances of the registered domain. *)
Theorem C34_register_string_partial w rid mp ip name indom l val t s u o w' r ip' d : reachable w -> w_regs w !! rid = Some r ->
  r_indoms r !! indom = Some ip' -> h_indoms (w_heap w) !! ip' = Some d -> NoDup l ->
  wstep w (CAddByString rid mp ip name indom (Some l) val t s u) o w' -> o = ROk -> forall n, n ∈ l <-> is_Some (id_insts d !! n).
Proof.
  intros R Hr Hi Hd ND S ->. apply match_nodup; [exact ND|].
  inversion S as [| | | | | | |? ? ? ? ? ? ? ? ? ? ? ord r0 ? hp' r1 ? Hr0 Hmp Hip Hv Hda Hord Ha| | | | | | | |]; subst. assert (r0 = r) as -> by congruence.
  unfold add_by_string, add_instance_by_string in Ha. destruct val as [v|vals]; [discriminate|]. rewrite Hi, Hd in Ha. destruct (match_instances d l); [reflexivity|discriminate].
Qed.
Example C34_ex : match_instances ex_cv.1 [str "b"; str "a"] = true /\ match_instances ex_cv.1 [str "a"] = false /\ match_instances ex_cv.1 [str "a"; str "c"] = false /\
  NoDup [str "b"; str "a"].
Proof. split_and!; [vm_compute; reflexivity|vm_compute; reflexivity|vm_compute; reflexivity|]. apply (bool_decide_eq_true_1 _). vm_compute. reflexivity. Qed.

(** ** C35 *)
(** Two domain objects of one name: the second metric keeps its own domain, and its published value refers to no instance. *)
Theorem C35_links_refuted : exists w c r w' b d, reachable w /\ w_clients w !! 0%nat = Some c /\ w_regs w !! cl_reg c = Some r /\ ~ all_linked (w_heap w) r /\
  wstep w (CStart 0 ex_gen ex_pid true) ROk w' /\ file_of w' c = Some b /\ Dump b = DOk d /\ loose d.
Proof.
  destruct wit_i_loose as (b & d & H1 & H2 & H3). exists wit_i, (wit_client 0), wit_ir, wit_is, b, d.
  split; [exact wit_i_reachable|]. split; [exact wit_ic_eq|]. split; [exact wit_ir_eq|]. split; [|split; [exact wit_i_step|auto]].
  intros L. specialize (L (str "m.b") 2%nat (wit_im (str "m.b") (str "b") 2 wit_db)). unfold linked in L.
  assert (r_indoms wit_ir !! id_name wit_db = Some 1%nat) as E by (vm_compute; reflexivity).
  assert (r_indoms wit_ir !! id_name wit_db = Some 2%nat) as E2; [|congruence].
  apply L; vm_compute; reflexivity.
Qed.
(** If AddMetric is only given metrics whose domain object is the registered one (or whose domain name is not registered yet), every
    registered metric's domain is the registered domain. AddMetricByString needs no such condition. *)
Theorem C35_links_partial tr w rid r : phist links_ok w_init tr w -> w_regs w !! rid = Some r -> all_linked (w_heap w) r.
Proof.
  intros H. revert rid r. apply (hist_linked w_init tr w init_ok); [|exact H]. intros rid r Hr. cbn in Hr. rewrite lookup_empty in Hr. discriminate.
Qed.
(** Then every published value of a metric with a domain refers to a published instance of that domain. *)
Theorem C35_published_partial tr w cid c r gen pid w' : phist links_ok w_init tr w -> w_clients w !! cid = Some c -> w_regs w !! cl_reg c = Some r ->
  publishable (w_heap w) r -> wstep w (CStart cid gen pid true) ROk w' ->
  exists buf d, file_of w' c = Some buf /\ Dump buf = DOk d /\ forall o x, du_values d !! o = Some x ->
    exists v, res_value d x = Some v /\ match vv_inst v with Some i => vi_indom i = vm_indom (vv_metric v) | None => vm_indom (vv_metric v) = -1 end.
Proof.
  intros H Hc Hr Hp S. assert (reachable w) as R by (eapply hist_reachable; [by eapply phist_hist|apply rtc_refl]).
  assert (startable (w_heap w) r) as Hs by (apply linked_startable; [exact (wo_regs _ (reachable_ok _ R) _ _ Hr)|exact Hp|by eapply C35_links_partial]).
  destruct (C01_start_publishes _ _ _ _ _ _ _ R Hc Hr Hs S) as (buf & Hf & (d & HD & _ & (_ & _ & _ & _ & Hv)) & _). exists buf, d. split_and!; auto.
  intros o x Hx. assert (res_value d x ∈ map Some (v_values (want_view (w_heap w) r))) as K.
  { rewrite <- Hv. apply elem_of_list_fmap. exists x. split; [reflexivity|]. apply elem_of_list_fmap. exists (o, x). split; [reflexivity|by apply elem_of_map_to_list]. }
  apply elem_of_list_fmap in K as (v & Ev & K). exists v. split; [exact Ev|]. cbn [want_view v_values] in K.
  apply elem_of_list_In, in_concat in K as (l & K & Hl).
  apply in_map_iff in K as (m & <- & _). eapply want_value_inst, elem_of_list_In, Hl.
Qed.
(** A domain, an instance metric on it, registered with AddMetric. *)
Example C35_ex : exists tr, phist links_ok w_init tr wit_k /\ w_regs wit_k !! 0%nat = Some wit_kr /\ w_clients wit_k !! 0%nat = Some (wit_client 0) /\
  publishable (w_heap wit_k) wit_kr /\ MetricCount wit_kr = 1 /\ InstanceDomainCount wit_kr = 1.
Proof.
  destruct wit_k_hist as [tr H]. exists tr. split_and!; [exact H|exact wit_kr_eq|vm_compute; reflexivity| |vm_compute; reflexivity|vm_compute; reflexivity].
  assert (startable (w_heap wit_k) wit_kr) as [S1 S2 S3 S4 S5] by (apply startableb_ok; vm_compute; reflexivity). by split.
Qed.

Print Assumptions C26_metric_ids.
Print Assumptions C26_indom_ids.
Print Assumptions C26_cluster_ids.
Print Assumptions C27_distinct_ids_refuted.
Print Assumptions C27_pigeonhole.
Print Assumptions C27_distinct_ids_partial.
Print Assumptions C29_counts.
Print Assumptions C30_metric_name_taken.
Print Assumptions C30_indom_name_taken.
Print Assumptions C30_by_string_name_taken.
Print Assumptions C30_forever.
Print Assumptions C31_frozen.
Print Assumptions C31_frozen_while_mapped.
Print Assumptions C32_by_string_refuted.
Print Assumptions C32_no_effect_partial.
Print Assumptions C32_by_string_partial.
Print Assumptions C33_version.
Print Assumptions C33_information.
Print Assumptions C34_set_equality_refuted.
Print Assumptions C34_set_equality_partial.
Print Assumptions C34_register_string_partial.
Print Assumptions C35_links_refuted.
Print Assumptions C35_links_partial.
Print Assumptions C35_published_partial.
