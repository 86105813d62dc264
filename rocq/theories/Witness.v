(** Small reachable worlds used as counterexamples. *)
From Verif Require Import Base BaseFacts Floats GoVal MetricType ByteWriter Hash Units Indom Metrics Registry Prog
  Client Mmvdump Ileave ProgProofs Exec Events StartEvents BufFacts Tiling StartGood StartLayout StartFinal StartDone
  View Sections StartView RegInv Update World OpRuns RegFacts WorldInv Sync StartLive FloatFacts ValueFacts MetricFacts SyncLive SyncView Life Example.

Definition wit_client (rid : nat) : client := mkClient (str "/tmp/mmv/one") (hash (str "one") PCPClusterIDBitLength) ProcessFlag rid None.
Definition wit_client2 : client := mkClient (str "/tmp/mmv/two") (hash (str "two") PCPClusterIDBitLength) ProcessFlag 0 None.

(** One empty registry, two clients using it. *)
Definition wit_reg : world := set_regs w_init {[0%nat := new_registry]}.
Definition wit1 : world := mkWorld (w_heap w_init) {[0%nat := new_registry]} {[0%nat := wit_client 0]} (w_files w_init) ∅ ∅ false.
Definition wit2 : world := mkWorld (w_heap w_init) {[0%nat := new_registry]} (<[1%nat := wit_client2]> {[0%nat := wit_client 0]}) (w_files w_init) ∅ ∅ false.

Lemma wit1_hist : hist w_init [(w_init, CNewRegistry 0, ROk); (wit_reg, CNewClient 0 (str "one") (str "/tmp/mmv/one") 0, ROk)] wit1.
Proof.
  eapply hist_cons; [apply (ws_new_registry w_init 0); reflexivity|]. eapply hist_cons; [|constructor].
  apply (ws_new_client wit_reg 0 (str "one") (str "/tmp/mmv/one") 0); [reflexivity|reflexivity|]. eexists. reflexivity.
Qed.
Lemma wit1_reachable : reachable wit1.
Proof. eapply hist_reachable; [exact wit1_hist|apply rtc_refl]. Qed.
Lemma wit2_step : wstep wit1 (CNewClient 1 (str "two") (str "/tmp/mmv/two") 0) ROk wit2.
Proof. apply (ws_new_client wit1 1 (str "two") (str "/tmp/mmv/two") 0); [reflexivity|reflexivity|]. eexists. reflexivity. Qed.
Lemma wit2_reachable : reachable wit2.
Proof. eapply reachable_step; [exact wit1_reachable|exact wit2_step]. Qed.
Lemma new_startable hp : startable hp new_registry.
Proof. split; cbn; try constructor; try reflexivity; unfold counts_ok; cbn; unfold InstanceDomainCount, InstanceCount, MetricCount, ValuesCount, StringCount; cbn; vm_compute; repeat split; congruence. Qed.

(** An instance domain without instances. *)
Definition wit_dom : indom := get no_indom (new_indom (str "dom") [] []).
Definition wit_heap_d : heap := mkHeap (<[1%nat := wit_dom]> (h_indoms (w_heap w_init))) (h_metrics (w_heap w_init)).
Definition wit_reg_d : registry := get new_registry (add_indom new_registry 1 wit_dom).
Definition wit_d : world := mkWorld wit_heap_d (<[0%nat := wit_reg_d]> {[0%nat := new_registry]}) {[0%nat := wit_client 0]} (w_files w_init) ∅ ∅ false.
Lemma wit_d_reachable : reachable wit_d.
Proof.
  eapply (reachable_step (mkWorld wit_heap_d {[0%nat := new_registry]} {[0%nat := wit_client 0]} (w_files w_init) ∅ ∅ false)).
  - eapply reachable_step; [exact wit1_reachable|]. apply (ws_new_indom wit1 1 (str "dom") [] []); reflexivity.
  - match goal with |- wstep ?w _ _ _ => pose proof (ws_add_indom w 0 1 new_registry wit_dom eq_refl eq_refl eq_refl) as S end. exact S.
Qed.

(** A counter with a description of 300 bytes. *)
Definition long_text (n : nat) : gostring := replicate n "x"%byte.
Definition wit_ctr : metric := get no_metric (NewPCPCounter 0 (str "c") [long_text 300]).
Definition wit_heap_l : heap := mkHeap (h_indoms (w_heap w_init)) {[1%nat := wit_ctr]}.
Definition wit_reg_l : registry := (add_metric wit_heap_l new_registry 1 wit_ctr).2.
Definition wit_l : world := mkWorld wit_heap_l (<[0%nat := wit_reg_l]> {[0%nat := new_registry]}) {[0%nat := wit_client 0]} (w_files w_init) ∅ ∅ false.
Lemma wit_l_reachable : reachable wit_l.
Proof.
  eapply (reachable_step (mkWorld wit_heap_l {[0%nat := new_registry]} {[0%nat := wit_client 0]} (w_files w_init) ∅ ∅ false)).
  - eapply reachable_step; [exact wit1_reachable|]. apply (ws_new_metric wit1 1 100 wit_ctr None); [reflexivity|reflexivity|reflexivity|].
    apply (cr_counter _ _ 0 (str "c") [long_text 300]); [unfold in_signed; lia|vm_compute; reflexivity].
  - match goal with |- wstep ?w _ _ _ => pose proof (ws_add_metric w 0 1 new_registry wit_ctr ROk wit_reg_l eq_refl eq_refl eq_refl) as S end.
    apply S. vm_compute. reflexivity.
Qed.

(** A schedule of Start ending in a panic. *)
Definition wit_sched : list nat := concat (replicate 200 [0; 3; 0; 5; 1; 8; 2; 6; 4; 13; 7; 0; 0; 9; 1]%nat).
Definition wit_run (w : world) (r : registry) (c : client) : gst * prog :=
  run (Length r) wit_sched (start_state r (w_offs w) ∅) (start_prog (start_cfg c r ex_gen ex_pid) (std_plan (w_heap w) r)).
Lemma wit_panics w r c : heap_ok (w_heap w) -> reg_ok (w_heap w) r -> g_panic (wit_run w r c).1 = true ->
  exists s, start_panics (w_heap w) (w_offs w) (start_cfg c r ex_gen ex_pid) s.
Proof.
  intros Hh Hr E. exists (wit_run w r c).1, (std_plan (w_heap w) r), (wit_run w r c).2. split; [by apply std_plan_ok|]. split; [|exact E].
  unfold wit_run. rewrite <- surjective_pairing. apply run_steps.
Qed.
Lemma wit_d_panics : exists s, start_panics (w_heap wit_d) (w_offs wit_d) (start_cfg (wit_client 0) wit_reg_d ex_gen ex_pid) s.
Proof.
  pose proof (reachable_ok _ wit_d_reachable) as W. apply wit_panics; [apply W|apply (wo_regs _ W 0); vm_compute; reflexivity|]. vm_cast_no_check (eq_refl true).
Qed.
Lemma wit_l_panics : exists s, start_panics (w_heap wit_l) (w_offs wit_l) (start_cfg (wit_client 0) wit_reg_l ex_gen ex_pid) s.
Proof.
  pose proof (reachable_ok _ wit_l_reachable) as W. apply wit_panics; [apply W|apply (wo_regs _ W 0); vm_compute; reflexivity|]. vm_cast_no_check (eq_refl true).
Qed.

(** Two string metrics, started: a string of 300 bytes given to one of them overwrites the other. *)
Definition wit_str (n : gostring) : metric := get no_metric (NewPCPSingletonMetric (VStr (str "hello")) n StringType DiscreteSemantics OneUnit []).
Definition wit_s0 : world := reg_metric (reg_metric (put_metric (put_metric ex0 1 100 (wit_str (str "m.a")) None) 2 100 (wit_str (str "m.b")) None) 0 1) 0 2.
Lemma wit_s0_reachable : reachable wit_s0.
Proof.
  unfold wit_s0. repeat (apply reg_reachable; [|reflexivity]). repeat (apply put_reachable; [|reflexivity|reflexivity|reflexivity|]); [exact ex0_reachable| |].
  - apply (cr_singleton _ _ (VStr (str "hello")) (str "m.a") StringType DiscreteSemantics OneUnit []); [exact I|cbv; intuition discriminate|apply get_some; reflexivity].
  - apply (cr_singleton _ _ (VStr (str "hello")) (str "m.b") StringType DiscreteSemantics OneUnit []); [exact I|cbv; intuition discriminate|apply get_some; reflexivity].
Qed.
Definition wit_sr : registry := get new_registry (w_regs wit_s0 !! 0%nat).
Lemma wit_sr_eq : w_regs wit_s0 !! 0%nat = Some wit_sr.
Proof. apply get_some. vm_compute. reflexivity. Qed.
Definition wit_sc : client := mkClient ex_loc (hash (str "example") PCPClusterIDBitLength) ProcessFlag 0 None.
Lemma wit_sc_eq : w_clients wit_s0 !! 0%nat = Some wit_sc.
Proof. vm_compute. reflexivity. Qed.
Lemma wit_s_done : run_done (wit_run wit_s0 wit_sr wit_sc) = true.
Proof. vm_cast_no_check (eq_refl true). Qed.
Lemma wit_s0_ok : w_ok wit_s0.
Proof. apply reachable_ok, wit_s0_reachable. Qed.
Lemma run_started w r c : heap_ok (w_heap w) -> reg_ok (w_heap w) r -> run_done (wit_run w r c) = true ->
  start_run (w_heap w) (w_offs w) (start_cfg c r ex_gen ex_pid) (wit_run w r c).1.
Proof.
  intros Hh Hr E. destruct (done_split _ E) as [H1 H2]. exists (std_plan (w_heap w) r). split; [by apply std_plan_ok|]. split; [|exact H2].
  rewrite <- H1. apply run_steps.
Qed.
Definition wit_s : world := started wit_s0 0 wit_sc wit_sr 0 0 (wit_run wit_s0 wit_sr wit_sc).1.
Lemma wit_s_step : wstep wit_s0 (CStart 0 ex_gen ex_pid true) ROk wit_s.
Proof.
  eapply ws_start; [reflexivity|exact wit_sc_eq|exact wit_sr_eq|reflexivity|reflexivity|].
  apply run_started; [apply wit_s0_ok|exact (wo_regs _ wit_s0_ok _ _ wit_sr_eq)|exact wit_s_done].
Qed.
Lemma wit_s_reachable : reachable wit_s.
Proof. eapply reachable_step; [exact wit_s0_reachable|exact wit_s_step]. Qed.
Lemma wit_s_startable : startable (w_heap wit_s0) wit_sr.
Proof. apply startableb_ok. vm_compute. reflexivity. Qed.

(** A value shown under another name than [n] changes from [d] to [d']. *)
Definition other_changed (n : list byte) (d d' : dump) : Prop :=
  exists o x x' v v', du_values d !! o = Some x /\ du_values d' !! o = Some x' /\ res_value d x = Some v /\ res_value d' x' = Some v' /\
    vm_name (vv_metric v) <> n /\ vm_name (vv_metric v') = vm_name (vv_metric v) /\ vv_val v <> vv_val v'.
Definition other_changedb (n : list byte) (d d' : dump) : bool :=
  existsb (fun p => match du_values d' !! p.1, res_value d p.2 with
    | Some x', Some v => match res_value d' x' with
        | Some v' => negb (bool_decide (vm_name (vv_metric v) = n)) && bool_decide (vm_name (vv_metric v') = vm_name (vv_metric v)) &&
            match vv_val v, vv_val v' with VStr a, VStr b => negb (bool_decide (a = b)) | _, _ => false end
        | None => false end
    | _, _ => false end) (map_to_list (du_values d)).
Lemma other_changedb_ok n d d' : other_changedb n d d' = true -> other_changed n d d'.
Proof.
  intros H. apply existsb_exists in H as ([o x] & Hin & H). cbn [fst snd] in H. apply elem_of_list_In, elem_of_map_to_list in Hin.
  destruct (du_values d' !! o) as [x'|] eqn:E1; [|discriminate]. destruct (res_value d x) as [v|] eqn:E2; [|discriminate]. destruct (res_value d' x') as [v'|] eqn:E3; [|discriminate].
  apply andb_prop in H as [H H3]. apply andb_prop in H as [H1 H2]. exists o, x, x', v, v'. split_and!; auto.
  - intros E. rewrite bool_decide_true in H1 by exact E. discriminate.
  - by apply bool_decide_eq_true in H2.
  - destruct (vv_val v); try discriminate. destruct (vv_val v'); try discriminate. intros E. injection E as <-. rewrite bool_decide_true in H3 by reflexivity. discriminate.
Qed.
Definition overflows (w : world) (c : client) (mp : nat) (v : goval) : bool :=
  match h_metrics (w_heap w) !! mp with
  | Some m => match m_kind m, m_set (w_files w) m v with
      | MSingleton, (ROk, fs', m') => match w_paths w !! cl_loc c with
          | Some ino => match f_inodes (w_files w) !! ino, f_inodes fs' !! ino with
              | Some b, Some b' => match Dump b, Dump b' with DOk d, DOk d' => other_changedb (padded 64 (md_name (m_desc m))) d d' | _, _ => false end
              | _, _ => false end
          | None => false end
      | _, _ => false end
  | None => false end.
Lemma overflows_ok w c mp v : w_dead w = false -> wf_goval v -> overflows w c mp v = true ->
  exists w' m b b' d d', wstep w (CUpdate mp (OSet v) false) ROk w' /\ h_metrics (w_heap w) !! mp = Some m /\ file_of w c = Some b /\ file_of w' c = Some b' /\
    Dump b = DOk d /\ Dump b' = DOk d' /\ other_changed (padded 64 (md_name (m_desc m))) d d'.
Proof.
  intros Hd Hv H. unfold overflows in H. destruct (h_metrics (w_heap w) !! mp) as [m|] eqn:Hm; [|discriminate]. destruct (m_kind m) eqn:Hk; try discriminate.
  destruct (m_set (w_files w) m v) as [[o fs'] m'] eqn:Hs. destruct o; try discriminate. destruct (w_paths w !! cl_loc c) as [ino|] eqn:Hp; [|discriminate].
  destruct (f_inodes (w_files w) !! ino) as [b|] eqn:Hb; [|discriminate]. destruct (f_inodes fs' !! ino) as [b'|] eqn:Hb'; [|discriminate].
  destruct (Dump b) as [d| | |] eqn:D1; try discriminate. destruct (Dump b') as [d'| | |] eqn:D2; try discriminate.
  eexists _, m, b, b', d, d'. split; [eapply (ws_update w mp (OSet v) false m ROk fs' m'); [exact Hd|exact Hm|exact Hv|unfold run_op; rewrite Hk; by rewrite Hs]|].
  split; [reflexivity|]. unfold file_of. cbn. rewrite Hp. cbn. rewrite Hb, Hb'. split_and!; auto. by apply other_changedb_ok.
Qed.
(** m.a or m.b, whichever has the first slot. *)
Definition wit_first : nat := if overflows wit_s wit_sc 1 (VStr (long_text 300)) then 1 else 2.
Lemma wit_s_overflows : overflows wit_s wit_sc wit_first (VStr (long_text 300)) = true.
Proof. vm_cast_no_check (eq_refl true). Qed.

(** An empty instance domain next to a non-empty one. *)
Definition wit_dom2 : indom := get no_indom (new_indom (str "full") [str "a"; str "b"] []).
Definition put_indom (w : world) (ip : nat) (d : indom) : world :=
  mkWorld (mkHeap (<[ip := d]> (h_indoms (w_heap w))) (h_metrics (w_heap w))) (w_regs w) (w_clients w) (w_files w) (w_paths w) (w_offs w) false.
Definition reg_indom (w : world) (rid ip : nat) : world :=
  match w_regs w !! rid, h_indoms (w_heap w) !! ip with
  | Some r, Some d => set_regs w (match add_indom r ip d with Some r' => <[rid := r']> (w_regs w) | None => w_regs w end)
  | _, _ => w
  end.
Lemma put_indom_reachable w ip name insts desc d : reachable w -> w_dead w = false -> h_indoms (w_heap w) !! ip = None ->
  new_indom name insts desc = Some d -> reachable (put_indom w ip d).
Proof. intros R. intros. eapply reachable_step; [exact R|]. by apply (ws_new_indom w ip name insts desc). Qed.
Lemma reg_indom_reachable w rid ip : reachable w -> w_dead w = false -> reachable (reg_indom w rid ip).
Proof.
  intros R D. unfold reg_indom. destruct (w_regs w !! rid) as [r|] eqn:Er; [|exact R]. destruct (h_indoms (w_heap w) !! ip) as [d|] eqn:Em; [|exact R].
  eapply reachable_step; [exact R|]. by apply (ws_add_indom w rid ip r d).
Qed.
Definition wit_e : world := reg_indom (reg_indom (put_indom (put_indom wit1 1 wit_dom) 2 wit_dom2) 0 1) 0 2.
Lemma wit_e_reachable : reachable wit_e.
Proof.
  unfold wit_e. repeat (apply reg_indom_reachable; [|reflexivity]).
  eapply (put_indom_reachable _ _ (str "full") [str "a"; str "b"] []); [|reflexivity|reflexivity|apply get_some; vm_compute; reflexivity].
  eapply (put_indom_reachable _ _ (str "dom") [] []); [exact wit1_reachable|reflexivity|reflexivity|reflexivity].
Qed.
Definition wit_er : registry := get new_registry (w_regs wit_e !! 0%nat).
Lemma wit_er_eq : w_regs wit_e !! 0%nat = Some wit_er.
Proof. apply get_some. vm_compute. reflexivity. Qed.
Lemma wit_e_startable : startable (w_heap wit_e) wit_er.
Proof. apply startableb_ok. vm_compute. reflexivity. Qed.
Lemma wit_e_starts : exists s, wstep wit_e (CStart 0 ex_gen ex_pid true) ROk (started wit_e 0 (wit_client 0) wit_er 0 0 s).
Proof.
  destruct (start_possible wit_e 0 (wit_client 0) wit_er ex_gen ex_pid 0 0 (reachable_ok _ wit_e_reachable)) as (s & H & _); eauto.
  exact wit_e_startable.
Qed.
