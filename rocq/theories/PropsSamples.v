(** C60, C61: the example programs do what their text says. *)
From Verif Require Import Base BaseFacts Floats GoVal MetricType ByteWriter Hash Units Indom Metrics Registry Prog
  Client Mmvdump View RegInv World OpRuns RegFacts WorldInv Sync MetricFacts VectorFacts SyncView Life Parse Example Samples SamplesFacts SamplesRun SamplesRt SamplesView.

(** The records of a file with names of [width] bytes. Types: 0 int32, 2 int64, 3 uint64, 6 string; semantics: 1 counter, 3 instant. *)
Definition metric_rec (width : Z) (name : gostring) (type sem unit : Z) (dom : option gostring) (short long : option gostring) : vmetric :=
  mkVM (padded width name) (hash name 10) type sem unit (match dom with Some d => hash d 22 | None => -1 end) (padded 256 <$> short) (padded 256 <$> long).
Definition dom_rec (name : gostring) (instances : Z) (short long : option gostring) : vindom :=
  mkVD (hash name 22) instances (padded 256 <$> short) (padded 256 <$> long).
Definition inst_rec (width : Z) (dom name : gostring) : vinst := mkVI (hash dom 22) (to_signed 32 (hash name 0)) (padded width name).
Definition one_value (m : vmetric) (v : goval) : view := mkView [] [] [m] [mkVV m None v].
(** dimension count 1: 1 << 20; dimension time 1, scale microseconds: 1 << 24 | 1 << 12 *)
Definition count_unit : Z := 1048576.
Definition usec_unit : Z := 16781312.

(** singleton_counter: the counter shows how often the loop ran, as an int64. *)
Theorem C60_counter loc gen pid n : publishes loc (str "singletoncounter") 1 3 gen pid (singleton_counter loc gen pid n)
  (one_value (metric_rec 64 (str "counter") 2 1 count_unit None (Some (str "A Simple Metric")) None) (VInt64 (to_signed 64 (Z.of_nat n)))).
Proof.
  eapply (runs_publish _ _ _ _ _ _ _ _ sc_r); [apply sc_runs|]. intros w RU M.
  eapply file_shows_veq; [|eapply (single_shows _ _ _ _ _ _ _ _ _ _ (str "counter") RU M); vm_compute; reflexivity]. split_and!; reflexivity.
Qed.
Example C60_counter_ex : publishes (str "/var/tmp/mmv/singletoncounter") (str "singletoncounter") 1 3 7 99 (singleton_counter (str "/var/tmp/mmv/singletoncounter") 7 99 60)
  (one_value (metric_rec 64 (str "counter") 2 1 1048576 None (Some (str "A Simple Metric")) None) (VInt64 60)).
Proof. apply (C60_counter _ _ _ 60). Qed.

(** simple: the file shows 42. *)
Theorem C60_simple loc gen pid : publishes loc (str "simple") 1 3 gen pid (simple loc gen pid)
  (one_value (metric_rec 64 (str "simple.counter") 0 1 count_unit None (Some (str "A Simple Metric"))
     (Some (str "This is a simple counter metric to demonstrate the speed API"))) (VInt32 42)).
Proof.
  eapply (runs_publish _ _ _ _ _ _ _ _ si_r); [apply si_runs|]. intros w RU M.
  eapply file_shows_veq; [|eapply (single_shows _ _ _ _ _ _ _ _ _ _ (str "simple.counter") RU M); vm_compute; reflexivity]. split_and!; reflexivity.
Qed.
Example C60_simple_ex : publishes (str "/tmp/simple") (str "simple") 1 3 0 1 (simple (str "/tmp/simple") 0 1)
  (one_value (metric_rec 64 (str "simple.counter") 0 1 1048576 None (Some (str "A Simple Metric"))
     (Some (str "This is a simple counter metric to demonstrate the speed API"))) (VInt32 42)).
Proof. apply C60_simple. Qed.

(** singleton_string: the name has more than 63 bytes, so the file has version 2; the value is 10 plus the number of rounds, as an int32. *)
Theorem C60_string_counter loc gen pid n : publishes loc (str "strings") 2 3 gen pid (singleton_string loc gen pid n)
  (one_value (metric_rec 256 (str "this.is.a.simple.counter.metric.to.demonstrate.the.RegisterString.function") 0 1 count_unit None None None)
     (VInt32 (to_signed 32 (10 + Z.of_nat n)))).
Proof.
  eapply (runs_publish _ _ _ _ _ _ _ _ ss_r); [apply ss_runs|]. intros w RU M.
  eapply file_shows_veq; [|eapply (single_shows _ _ _ _ _ _ _ _ _ _ demo_name RU M); vm_compute; reflexivity]. split_and!; reflexivity.
Qed.
Example C60_string_counter_ex : publishes (str "/tmp/strings") (str "strings") 2 3 0 1 (singleton_string (str "/tmp/strings") 0 1 60)
  (one_value (metric_rec 256 (str "this.is.a.simple.counter.metric.to.demonstrate.the.RegisterString.function") 0 1 count_unit None None None) (VInt32 70)).
Proof. apply (C60_string_counter _ _ _ 60). Qed.

(** simple_string_metric: after round n the file shows name number (n - 1) mod 6. *)
Theorem C60_names loc gen pid n : publishes loc (str "stringtest") 1 3 gen pid (simple_string_metric loc gen pid n)
  (one_value (metric_rec 64 (str "bat.names") 6 3 count_unit None None None)
     (VStr (padded 256 (nth ((n - 1) mod 6)%nat [str "Batman"; str "Robin"; str "Nightwing"; str "Batgirl"; str "Red Robin"; str "Red Hood"] [])))).
Proof.
  eapply (runs_publish _ _ _ _ _ _ _ _ bn_r); [apply bn_runs|]. intros w RU M.
  eapply file_shows_veq; [|eapply (single_shows _ _ _ _ _ _ _ _ _ _ (str "bat.names") RU M); vm_compute; reflexivity]. split_and!; reflexivity.
Qed.
Example C60_names_ex : publishes (str "/tmp/bats") (str "stringtest") 1 3 0 1 (simple_string_metric (str "/tmp/bats") 0 1 9)
  (one_value (metric_rec 64 (str "bat.names") 6 3 count_unit None None None) (VStr (padded 256 (str "Nightwing")))).
Proof. apply (C60_names _ _ _ 9). Qed.

(** instance_string: one value per language; the users of go double each round, which is 0 from round 64 on. *)
Definition languages : list gostring := [str "go"; str "javascript"; str "php"].
Definition users (n : Z) : list (gostring * Z) := [(str "go", 2 ^ n); (str "javascript", 100 + 10 * n); (str "php", 10 + n)].
Theorem C60_users loc gen pid n : publishes loc (str "strings") 1 4 gen pid (instance_string loc gen pid n)
  (let m := metric_rec 64 (str "language.users") 3 1 count_unit (Some (str "language")) None None in
   mkView [dom_rec (str "language") 3 None None] (map (inst_rec 64 (str "language")) languages) [m]
     (map (fun '(i, v) => mkVV m (Some (inst_rec 64 (str "language") i)) (VUint64 (v mod 2 ^ 64))) (users (Z.of_nat n)))).
Proof.
  eapply (runs_publish _ _ _ _ _ _ _ _ la_r); [apply la_runs|]. intros w RU (Hd & g & M & G).
  eapply file_shows_veq; [|refine (inst_shows w loc _ la_r gen pid [mkIM 1 (m_desc la_m) 1 la_d g] [la_d] RU _ _ _)].
  - assert (new_indom (str "language") la_names [] = Some la_d) as En by (apply (get_some no_indom); vm_compute; reflexivity).
    assert (NoDup la_names) as ND by (apply (bool_decide_eq_true_1 _); vm_compute; reflexivity).
    split_and!; cbn [v_indoms v_insts v_metrics v_values map concat].
    + vm_compute. reflexivity.
    + rewrite app_nil_r, (dom_list _ _ _ _ En ND). vm_compute. reflexivity.
    + vm_compute. reflexivity.
    + rewrite app_nil_r. cbn [im_desc im_dom im_vals]. rewrite (inst_vals_list _ _ _ _ _ _ _ (fun i => VUint64 (la_val n i)) En ND G).
      unfold la_names, languages, users. cbn [map]. unfold la_val, to_unsigned.
      rewrite !(decide_True (P := ?[x] = ?x)) by reflexivity.
      rewrite (decide_False (P := str "javascript" = str "go")) by (vm_compute; discriminate). rewrite (decide_False (P := str "php" = str "go")) by (vm_compute; discriminate).
      rewrite (decide_False (P := str "php" = str "javascript")) by (vm_compute; discriminate). reflexivity.
  - vm_compute. reflexivity.
  - assert ((map_to_list (r_indoms la_r)).*2 = [1%nat]) as -> by (vm_compute; reflexivity). by repeat constructor.
  - by repeat constructor.
Qed.
Example C60_users_ex : publishes (str "/tmp/strings") (str "strings") 1 4 0 1 (instance_string (str "/tmp/strings") 0 1 64)
  (let m := metric_rec 64 (str "language.users") 3 1 count_unit (Some (str "language")) None None in
   mkView [dom_rec (str "language") 3 None None] (map (inst_rec 64 (str "language")) languages) [m]
     [mkVV m (Some (inst_rec 64 (str "language") (str "go"))) (VUint64 0); mkVV m (Some (inst_rec 64 (str "language") (str "javascript"))) (VUint64 740);
      mkVV m (Some (inst_rec 64 (str "language") (str "php"))) (VUint64 74)]).
Proof. apply (C60_users _ _ _ 64). Qed.

(** acme: [serial] shows 42 anvils and nothing else, whatever order the maps are visited in. *)
Definition products : list gostring := [str "Anvils"; str "Rockets"; str "Giant_Rubber_Bands"].
Theorem C60_acme loc gen pid o1 o2 : o1 ≡ₚ products -> o2 ≡ₚ products -> publishes loc (str "acme") 1 5 gen pid (acme_serial loc gen pid o1 o2)
  (let count := metric_rec 64 (str "products.count") 3 1 count_unit (Some (str "Acme Products")) (Some (str "Acme factory product throughput"))
     (Some (str "Monotonic increasing counter of products produced in the Acme Corporation" ++ [x0a; x09; x09] ++
            str " factory since starting the Acme production application.  Quality guaranteed.")) in
   let time := metric_rec 64 (str "products.time") 3 1 usec_unit (Some (str "Acme Products")) (Some (str "Machine time spent producing Acme products")) None in
   let at_ m i v := mkVV m (Some (inst_rec 64 (str "Acme Products") i)) (VUint64 v) in
   mkView [dom_rec (str "Acme Products") 3 (Some (str "Acme products")) (Some (str "Most popular products produced by the Acme Corporation"))]
     (map (inst_rec 64 (str "Acme Products")) products) [count; time]
     ([at_ count (str "Anvils") 42; at_ count (str "Rockets") 0; at_ count (str "Giant_Rubber_Bands") 0] ++ map (fun i => at_ time i 0) products)).
Proof.
  intros P1 P2. eapply (runs_publish _ _ _ _ _ _ _ _ ac_r); [by apply ac_runs|]. intros w RU (Hd & (g1 & M1 & G1) & g2 & M2 & G2).
  eapply file_shows_veq; [|refine (inst_shows w loc _ ac_r gen pid [mkIM 2 (m_desc ac_m2) 1 ac_d g2; mkIM 1 (m_desc ac_m1) 1 ac_d g1] [ac_d] RU _ _ _)].
  - split_and!; cbn [v_indoms v_insts v_metrics v_values map concat].
    + vm_compute. reflexivity.
    + rewrite app_nil_r, (dom_list _ _ _ _ ac_new ac_nodup). vm_compute. reflexivity.
    + etransitivity; [apply perm_swap|]. vm_compute. reflexivity.
    + rewrite app_nil_r. cbn [im_desc im_dom im_vals]. rewrite (inst_vals_list _ _ _ _ _ _ _ (fun i => VUint64 (made i)) ac_new ac_nodup G1), (inst_vals_list _ _ _ _ _ _ _ (fun i => VUint64 0) ac_new ac_nodup G2).
      etransitivity; [apply Permutation_app_comm|]. vm_compute. reflexivity.
  - vm_compute. reflexivity.
  - assert ((map_to_list (r_indoms ac_r)).*2 = [1%nat]) as -> by (vm_compute; reflexivity). by repeat constructor.
  - by repeat constructor.
Qed.
(* the orders two ranges over the domain's map may take *)
Example C60_acme_ex : [str "Rockets"; str "Giant_Rubber_Bands"; str "Anvils"] ≡ₚ products /\
  exists w, exec w_init (acme_serial (str "/tmp/acme") 7 99 [str "Rockets"; str "Giant_Rubber_Bands"; str "Anvils"] products) true w.
Proof.
  assert ([str "Rockets"; str "Giant_Rubber_Bands"; str "Anvils"] ≡ₚ products) as P.
  { change products with ([str "Anvils"] ++ [str "Rockets"; str "Giant_Rubber_Bands"]). change [str "Rockets"; str "Giant_Rubber_Bands"; str "Anvils"] with ([str "Rockets"; str "Giant_Rubber_Bands"] ++ [str "Anvils"]). apply Permutation_app_comm. }
  split; [exact P|]. exact (proj1 (proj1 (C60_acme (str "/tmp/acme") 7 99 _ products P (Permutation_refl _)))).
Qed.

(** runtime: after n rounds every instance shows what its last round measured, but "Lookups", which no round updates, shows 0. *)
Definition mem_instances : list gostring :=
  [str "Alloc"; str "TotalAlloc"; str "Sys"; str "Lookups"; str "Mallocs"; str "Frees"; str "HeapAlloc"; str "HeapSys"; str "HeapIdle";
   str "HeapInuse"; str "HeapReleased"; str "HeapObjects"; str "StackInuse"; str "StackSys"; str "MSpanInuse"; str "MSpanSys"; str "MCacheInuse";
   str "MCacheSys"; str "BuckHashSys"; str "GCSys"; str "OtherSys"; str "NextGC"; str "LastGC"; str "PauseTotalNs"; str "PauseNs"; str "PauseEnd"; str "NumGC"].
Definition measured (f : nat -> Z) (n : nat) : Z := match n with O => 0 | S k => f k end.
Definition runtime_view (cgo gor : nat -> Z) (mem : nat -> gostring -> Z) (n : nat) : view :=
  let cm := metric_rec 64 (str "cpu") 2 1 count_unit (Some (str "CPU Metrics")) None None in
  let mm := metric_rec 64 (str "mem") 3 1 count_unit (Some (str "Memory Metrics")) None None in
  mkView [dom_rec (str "CPU Metrics") 2 None None; dom_rec (str "Memory Metrics") 27 None None]
    (map (inst_rec 64 (str "CPU Metrics")) [str "CGoCalls"; str "Goroutines"] ++ map (inst_rec 64 (str "Memory Metrics")) mem_instances) [cm; mm]
    ([mkVV cm (Some (inst_rec 64 (str "CPU Metrics") (str "CGoCalls"))) (VInt64 (measured cgo n));
      mkVV cm (Some (inst_rec 64 (str "CPU Metrics") (str "Goroutines"))) (VInt64 (measured gor n))] ++
     map (fun i => mkVV mm (Some (inst_rec 64 (str "Memory Metrics") i)) (VUint64 (if decide (i = str "Lookups") then 0 else measured (fun k => mem k i) n))) mem_instances).
Lemma runtime_shows loc gen pid cgo gor mem n w : rt_inv loc gen pid (cpu_val cgo gor n) (mem_val mem n) w ->
  file_shows w loc (str "runtime") 1 4 gen pid (runtime_view cgo gor mem n).
Proof.
  intros (RU & D1 & D2 & (g1 & M1 & G1) & g2 & M2 & G2).
  eapply file_shows_veq; [|refine (inst_shows w loc _ rt_r gen pid [mkIM 2 (m_desc me_m) 2 me_d g2; mkIM 1 (m_desc cp_m) 1 cp_d g1] [cp_d; me_d] RU _ _ _)].
  - split_and!; cbn [v_indoms v_insts v_metrics v_values map concat runtime_view].
    + vm_compute. reflexivity.
    + rewrite app_nil_r, (dom_list _ _ _ _ cp_new cp_nodup), (dom_list _ _ _ _ me_new me_nodup). vm_compute. reflexivity.
    + etransitivity; [apply perm_swap|]. vm_compute. reflexivity.
    + rewrite app_nil_r. cbn [im_desc im_dom im_vals].
      etransitivity; [apply Permutation_app_comm|]. apply Permutation_app.
      * etransitivity; [exact (inst_vals_list _ _ _ _ _ _ _ (fun i => VInt64 (cpu_val cgo gor n i)) cp_new cp_nodup G1)|].
        assert (cpu_val cgo gor n (str "CGoCalls") = measured cgo n) as E1 by reflexivity. assert (cpu_val cgo gor n (str "Goroutines") = measured gor n) as E2 by reflexivity.
        unfold cpu_names. cbn [map]. rewrite E1, E2. clear. generalize (measured cgo n), (measured gor n). intros a b. vm_compute. reflexivity.
      * etransitivity; [exact (inst_vals_list _ _ _ _ _ _ _ (fun i => VUint64 (mem_val mem n i)) me_new me_nodup G2)|].
        assert (forall i, mem_val mem n i = if decide (i = str "Lookups") then 0 else measured (fun k => mem k i) n) as E by reflexivity.
        change mem_names with mem_instances. assert (forall (A B : Type) (p q : A -> B) l, (forall x, p x = q x) -> map p l ≡ₚ map q l) as PM by (intros A B p q l Hpq; rewrite (map_ext _ _ Hpq); reflexivity). apply PM. clear PM. intros i. rewrite <- E. generalize (mem_val mem n i). intros z.
        assert (want_metric (r_version2 rt_r) (m_desc me_m) (Some me_d) = metric_rec 64 (str "mem") 3 1 count_unit (Some (str "Memory Metrics")) None None) as -> by (vm_compute; reflexivity).
        assert (want_inst (r_version2 rt_r) me_d (i, inst_id i) = inst_rec 64 (str "Memory Metrics") i) as ->; [|reflexivity].
        unfold want_inst, inst_rec. cbn [fst snd]. assert (r_version2 rt_r = false) as -> by (vm_compute; reflexivity). assert (id_id me_d = hash (str "Memory Metrics") 22) as -> by (vm_compute; reflexivity). reflexivity.
  - vm_compute. reflexivity.
  - assert ((map_to_list (r_indoms rt_r)).*2 = [1%nat; 2%nat]) as -> by (vm_compute; reflexivity). by repeat constructor.
  - by repeat constructor.
Qed.
Theorem C60_runtime loc gen pid o1 o2 cgo gor mem n : o1 ≡ₚ [str "CGoCalls"; str "Goroutines"] -> o2 ≡ₚ mem_instances ->
  (forall k, in_signed 64 (cgo k)) -> (forall k, in_signed 64 (gor k)) -> (forall k i, in_unsigned 64 (mem k i)) ->
  publishes loc (str "runtime") 1 4 gen pid (runtime_stats loc gen pid o1 o2 cgo gor mem n) (runtime_view cgo gor mem n).
Proof.
  intros P1 P2 HC HG HM. eapply (runs_publish _ _ _ _ _ _ _ _ rt_r); [apply (rt_runs loc gen pid _ _ _ _ _ n P1 P2 HC HG HM)|].
  intros w RU R. apply runtime_shows. split; [exact RU|exact R].
Qed.
(* the number of rounds made so far as the count of goroutines and as every memory statistic, and no cgo calls *)
Example C60_runtime_ex : (forall k : nat, in_signed 64 0) /\
  publishes (str "/tmp/rt") (str "runtime") 1 4 7 99
    (runtime_stats (str "/tmp/rt") 7 99 [str "CGoCalls"; str "Goroutines"] mem_instances (fun _ => 0) (fun k => to_signed 64 (Z.of_nat k + 5)) (fun k _ => to_unsigned 64 (Z.of_nat k)) 3)
    (runtime_view (fun _ => 0) (fun k => to_signed 64 (Z.of_nat k + 5)) (fun k _ => to_unsigned 64 (Z.of_nat k)) 3) /\
  VInt64 7 ∈ map vv_val (v_values (runtime_view (fun _ => 0) (fun k => to_signed 64 (Z.of_nat k + 5)) (fun k _ => to_unsigned 64 (Z.of_nat k)) 3)).
Proof.
  split; [intros; split; cbv; congruence|]. split.
  - apply C60_runtime; [reflexivity|reflexivity|intros; split; cbv; congruence|intros; apply to_signed_range; lia|intros; apply to_unsigned_range; lia].
  - apply (bool_decide_eq_true_1 _). vm_compute. reflexivity.
Qed.

(** runtime's main function stops the client while its goroutine still measures: after the first [j] updates of a round. [figures] are the
    updates of round [k] in their order. *)
Definition figures (cgo gor : nat -> Z) (mem : nat -> gostring -> Z) (k : nat) : list (gostring * Z) :=
  [(str "CGoCalls", cgo k); (str "Goroutines", gor k)] ++ map (fun i => (i, mem k i)) (filter (fun i => i <> str "Lookups") mem_instances).
Definition last_figure (cgo gor : nat -> Z) (mem : nat -> gostring -> Z) (n : nat) (i : gostring) : Z :=
  measured (fun k => if decide (i = str "CGoCalls") then cgo k else if decide (i = str "Goroutines") then gor k else mem k i) n.
Definition stopped_in_round (loc : gostring) (gen pid : Z) (o1 o2 : list gostring) (cgo gor : nat -> Z) (mem : nat -> gostring -> Z) (n j : nat) (erase : bool) : list gstmt :=
  runtime_stats loc gen pid o1 o2 cgo gor mem n ++ take j (runtime_round cgo gor mem n) ++ must_stop erase :: drop j (runtime_round cgo gor mem n).
(** The rest of the round finishes exactly if none of its figures has changed since the last round; the file, if not erased, then shows the whole
    round. Otherwise every run ends in a memory fault. *)
Theorem C61_runtime_stop_partial loc gen pid o1 o2 cgo gor mem n j erase : o1 ≡ₚ [str "CGoCalls"; str "Goroutines"] -> o2 ≡ₚ mem_instances ->
  (forall k, in_signed 64 (cgo k)) -> (forall k, in_signed 64 (gor k)) -> (forall k i, in_unsigned 64 (mem k i)) ->
  let prog := stopped_in_round loc gen pid o1 o2 cgo gor mem n j erase in
  let same := forall i z, (i, z) ∈ drop j (figures cgo gor mem n) -> z = last_figure cgo gor mem n i in
  (same -> surely w_init prog (fun w => if erase then w_paths w !! loc = None else file_shows w loc (str "runtime") 1 4 gen pid (runtime_view cgo gor mem (S n)))) /\
  (~ same -> (exists w, exec w_init prog false w) /\ forall b w, exec w_init prog b w -> b = false /\ w_dead w = true).
Proof.
  intros P1 P2 HC HG HM prog same. pose proof (rt_runs loc gen pid _ _ _ _ _ n P1 P2 HC HG HM) as R.
  assert (same <-> Forall (unchanged (now (cpu_val cgo gor n) (mem_val mem n))) (drop j (figs (cgo n) (gor n) (mem n)))) as HS.
  { assert (figures cgo gor mem n = map (fun u : fig => (u.1.2, u.2)) (figs (cgo n) (gor n) (mem n))) as EF.
    { unfold figures, figs. rewrite map_app, map_map. assert (filter (fun i => i <> str "Lookups") mem_instances = mem_updated) as -> by (vm_compute; reflexivity). reflexivity. }
    assert (Forall (fun u : fig => now (cpu_val cgo gor n) (mem_val mem n) u.1.1 u.1.2 = last_figure cgo gor mem n u.1.2) (figs (cgo n) (gor n) (mem n))) as EL.
    { unfold figs. apply Forall_app. split.
      - apply Forall_cons. split; [reflexivity|]. apply Forall_cons. split; [reflexivity|]. by apply Forall_nil.
      - apply Forall_forall. intros u Hu. apply elem_of_list_fmap in Hu as (i & -> & Hi). cbn [fst snd now]. unfold mem_val, last_figure. rewrite decide_False by (intros ->; by apply me_lookups).
        unfold measured, last_of. clear - Hi. destruct n as [|n]; [reflexivity|].
        rewrite (decide_False (P := i = str "CGoCalls")), (decide_False (P := i = str "Goroutines")); [reflexivity| |]; intros ->; revert Hi; apply (bool_decide_eq_true_1 (_ ∉ _)); vm_compute; reflexivity. }
    unfold same. rewrite EF, skipn_map, Forall_forall. assert (forall u, u ∈ drop j (figs (cgo n) (gor n) (mem n)) -> now (cpu_val cgo gor n) (mem_val mem n) u.1.1 u.1.2 = last_figure cgo gor mem n u.1.2) as G.
    { rewrite Forall_forall in EL. intros u Hu. apply EL. rewrite <- (take_drop j (figs _ _ _)). apply elem_of_app. by right. }
    split.
    - intros H u Hu. unfold unchanged. rewrite (G u Hu). symmetry. apply H. apply elem_of_list_fmap. by exists u.
    - intros H i z Hz. apply elem_of_list_fmap in Hz as (u & E & Hu). injection E as -> ->. rewrite <- (G u Hu). symmetry. exact (H u Hu). }
  split.
  - intros Hs. eapply surely_app; [exact R|]. intros w1 I. eapply (proj1 (rt_mid loc gen pid cgo gor mem n j erase w1 HC HG HM I)); [by apply HS|].
    intros w2 I2. eapply surely_mono; [exact (s_stop _ _ _ _ _ _ erase (proj1 I2))|]. intros w' (_ & _ & Hp & Hi & _). destruct erase; [exact Hp|].
    destruct (runtime_shows _ _ _ _ _ _ _ _ I2) as (ino & buf & d & A & B & C & D & E). exists ino, buf, d. rewrite Hp, Hi. auto.
  - intros Hs. eapply faults_app; [exact R|]. intros w1 I. apply (proj2 (rt_mid loc gen pid cgo gor mem n j erase w1 HC HG HM I)). by rewrite <- HS.
Qed.
Example C61_runtime_stop_ex : let five := fun _ : nat => 5 in let mem := fun k i => if decide (i = str "NumGC") then to_unsigned 64 (Z.of_nat k) else 5 in
  (forall i z, (i, z) ∈ drop 28 (figures five five mem 3) -> z = last_figure five five mem 3 i) /\
  ~ (forall i z, (i, z) ∈ drop 27 (figures five five mem 3) -> z = last_figure five five mem 3 i).
Proof.
  split.
  - intros i z H. assert (drop 28 (figures (fun _ => 5) (fun _ => 5) (fun k i => if decide (i = str "NumGC") then to_unsigned 64 (Z.of_nat k) else 5) 3) = []) as E by (vm_compute; reflexivity).
    rewrite E in H. by apply elem_of_nil in H.
  - intros H. specialize (H (str "NumGC") 3). assert (3 = 2) as E; [|discriminate E]. etransitivity; [apply H|vm_compute; reflexivity].
    apply (bool_decide_eq_true_1 _). vm_compute. reflexivity.
Qed.
(** One might expect that the program always ends without a fault. It does not: a changed figure after the stop is written to the unmapped file. *)
Theorem C61_runtime_stop_refuted : ~ forall loc gen pid cgo gor mem n j erase,
  (forall k, in_signed 64 (cgo k)) -> (forall k, in_signed 64 (gor k)) -> (forall k i, in_unsigned 64 (mem k i)) ->
  surely w_init (stopped_in_round loc gen pid [str "CGoCalls"; str "Goroutines"] mem_instances cgo gor mem n j erase) (fun _ => True).
Proof.
  intros H. specialize (H [] 0 0 (fun _ => 1) (fun _ => 1) (fun _ _ => 1) 0%nat 0%nat false).
  assert (forall k : nat, in_signed 64 1) as B1 by (intros; split; cbv; congruence). assert (forall (k : nat) (i : gostring), in_unsigned 64 1) as B2 by (intros; split; cbv; congruence).
  destruct (H B1 B1 B2) as [[w E] _]. destruct (C61_runtime_stop_partial [] 0 0 _ _ (fun _ => 1) (fun _ => 1) (fun _ _ => 1) 0 0 false (Permutation_refl _) (Permutation_refl _) B1 B1 B2) as [_ F].
  destruct F as [_ F]; [|by destruct (F _ _ E)]. intros S0. specialize (S0 (str "CGoCalls") 1). assert (1 = 0) as X; [|discriminate X]. apply S0. left.
Qed.

Print Assumptions C60_counter.
Print Assumptions C60_simple.
Print Assumptions C60_string_counter.
Print Assumptions C60_names.
Print Assumptions C60_users.
Print Assumptions C60_acme.
Print Assumptions C60_runtime.
Print Assumptions C61_runtime_stop_refuted.
Print Assumptions C61_runtime_stop_partial.
