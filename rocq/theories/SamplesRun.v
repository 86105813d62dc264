(** The setups and loops of the example programs. *)
From Verif Require Import Base BaseFacts Floats GoVal MetricType ByteWriter Hash Units Indom Metrics Registry Prog
  Client Mmvdump View RegInv World OpRuns RegFacts WorldInv Sync FloatFacts ValueFacts MetricFacts VectorFacts SyncView Life Parse Example Samples SamplesFacts.

(** The order in which a domain is visited makes no difference if nothing fails. *)
Lemma init_vals_perm t vals ord ord' acc cells : init_vals t vals ord acc = Some cells -> ord' ≡ₚ ord -> init_vals t vals ord' acc = Some cells.
Proof.
  intros E P. destruct (init_vals_spec _ _ _ _ _ E) as [A B]. destruct (RegFacts.init_vals_some t vals ord' acc) as [c E'].
  { rewrite P. exact A. }
  rewrite E'. f_equal. destruct (init_vals_spec _ _ _ _ _ E') as [_ B']. apply map_eq. intros i. rewrite B, B'.
  assert (i ∈ ord' <-> i ∈ ord) as HI by (by rewrite P). do 2 case_decide; tauto.
Qed.
Lemma new_instance_perm vals name ip d t s u desc ord ord' m : NewPCPInstanceMetric vals name ip d t s u desc ord = Some m -> ord' ≡ₚ ord ->
  NewPCPInstanceMetric vals name ip d t s u desc ord' = Some m.
Proof.
  unfold NewPCPInstanceMetric, new_inst_body. intros E P. destruct (new_desc _ _ _ _ _) as [D|]; [|discriminate]. destruct (_ =? _); [|discriminate].
  destruct (init_vals _ _ ord _) as [c|] eqn:Ei; [|discriminate]. by rewrite (init_vals_perm _ _ _ _ _ _ Ei P).
Qed.

(** RegisterString of a singleton, and of a metric with a new domain. *)
Lemma s_string w f mp ip name dn v t s u r hp' r' ss (Q : world -> Prop) : okw w -> f w = Some (CAddByString 0 mp ip name dn None (AVal v) t s u) ->
  w_regs w !! 0%nat = Some r -> h_metrics (w_heap w) !! mp = None -> h_indoms (w_heap w) !! ip = None -> wf_goval v -> desc_args t s u ->
  add_singleton_by_string (w_heap w) r mp name (AVal v) t s u = (ROk, hp', r') ->
  let w1 := mkWorld hp' (<[0%nat := r']> (w_regs w)) (w_clients w) (w_files w) (w_paths w) (w_offs w) false in
  (okw w1 -> surely w1 ss Q) -> surely w (GCall f :: ss) Q.
Proof.
  intros O Hf Hr Hm Hi Hv Hd Ha w1 H. pose proof O as [_ D]. eapply s_call with (w1 := w1); [exact O|exact Hf| |reflexivity| |exact H].
  - exact (ws_add_by_string w 0 mp ip name dn None (AVal v) t s u [] r ROk hp' r' D Hr Hm Hi Hv Hd I Ha).
  - intros o w2 S2. inversion S2 as [| | | | | | |w0 rid0 mp0 ip0 n0 i0 l0 v0 t0 s0 u0 ord r0 o0 hp0 r0' E1 E2 E3 E4 E5 E6 E7 E8| | | | | | | |]; subst.
    assert (r0 = r) as -> by congruence. cbn [add_by_string] in E8. rewrite Ha in E8. injection E8 as <- <- <-. auto.
Qed.
Lemma s_string_inst w f mp ip name dn l vals t s u r d hp1 r1 m r' ss (Q : world -> Prop) : okw w -> f w = Some (CAddByString 0 mp ip name dn (Some l) (AInst vals) t s u) ->
  w_regs w !! 0%nat = Some r -> h_metrics (w_heap w) !! mp = None -> h_indoms (w_heap w) !! ip = None -> (forall i v, vals !! i = Some v -> wf_goval v) -> desc_args t s u ->
  r_indoms r !! dn = None -> new_indom dn l [] = Some d -> add_indom_by_name (w_heap w) r ip dn l = (ROk, hp1, r1) -> h_indoms hp1 !! ip = Some d ->
  NewPCPInstanceMetric vals name ip d t s u [] (map_to_list (id_insts d)).*1 = Some m -> add_metric hp1 r1 mp m = (ROk, r') ->
  let w1 := mkWorld (mkHeap (h_indoms hp1) (<[mp := m]> (h_metrics hp1))) (<[0%nat := r']> (w_regs w)) (w_clients w) (w_files w) (w_paths w) (w_offs w) false in
  (okw w1 -> surely w1 ss Q) -> surely w (GCall f :: ss) Q.
Proof.
  intros O Hf Hr Hm Hi Hv Hd Hn Hnew Ha Hd1 Hnm Hadd w1 H. pose proof O as [_ D].
  assert (forall ord, ord ≡ₚ (map_to_list (id_insts d)).*1 ->
    add_by_string (w_heap w) r mp ip name dn (Some l) (AInst vals) t s u ord = (ROk, mkHeap (h_indoms hp1) (<[mp := m]> (h_metrics hp1)), r')) as K.
  { intros ord P. cbn [add_by_string]. unfold add_instance_by_string. rewrite Hn, Ha. unfold add_instance_with. rewrite Hd1, (new_instance_perm _ _ _ _ _ _ _ _ _ _ _ Hnm P), Hadd. reflexivity. }
  eapply s_call with (w1 := w1); [exact O|exact Hf| |reflexivity| |exact H].
  - refine (ws_add_by_string w 0 mp ip name dn (Some l) (AInst vals) t s u (map_to_list (id_insts d)).*1 r ROk _ r' D Hr Hm Hi Hv Hd _ (K _ _)); [|reflexivity].
    cbn. rewrite Hn. intros d0 E. assert (d0 = d) as -> by congruence. reflexivity.
  - intros o w2 S2. inversion S2 as [| | | | | | |w0 rid0 mp0 ip0 n0 i0 l0 v0 t0 s0 u0 ord r0 o0 hp0 r0' E1 E2 E3 E4 E5 E6 E7 E8| | | | | | | |]; subst.
    assert (r0 = r) as -> by congruence. cbn in E7. rewrite Hn in E7. specialize (E7 _ Hnew). rewrite (K _ E7) in E8. injection E8 as <- <- <-. auto.
Qed.

Lemma reg1 r mp : existsb (fun x => Nat.eqb x.2 mp) (map_to_list (r_metrics r)) = true -> registered r mp.
Proof.
  intros H. apply existsb_exists in H as ([n mp'] & H & E). apply Nat.eqb_eq in E. cbn in E. subst mp'. exists n.
  by apply elem_of_list_In, elem_of_map_to_list in H.
Qed.
Lemma to_signed_add w a b : 0 <= w -> to_signed w (to_signed w a + b) = to_signed w (a + b).
Proof.
  intros Hw. assert (2 ^ w <> 0) as E by (pose proof (Z.pow_pos_nonneg 2 w); lia). unfold to_signed, to_unsigned. cbv zeta. set (M := 2 ^ w) in *.
  assert (forall x, (if x mod M <? 2 ^ (w - 1) then x mod M else x mod M - M) mod M = x mod M) as G.
  { intros x. case_match; [by rewrite Z.mod_mod|]. rewrite <- (Z.mod_add (x mod M - M) 1 M) by exact E. rewrite Z.mul_1_l, Z.sub_add. by rewrite Z.mod_mod. }
  assert (((if a mod M <? 2 ^ (w - 1) then a mod M else a mod M - M) + b) mod M = (a + b) mod M) as ->; [|reflexivity].
  rewrite <- Zplus_mod_idemp_l, G. by rewrite Zplus_mod_idemp_l.
Qed.
Lemma okw_init : okw w_init.
Proof. split; [apply rtc_refl|reflexivity]. Qed.
Lemma view_of hp r ds ms (V : view) : reg_indoms hp r = ds -> reg_metrics hp r = ms ->
  veq (mkView (map want_indom ds) (concat (map (fun d => map (want_inst (r_version2 r) d) (map_to_list (id_insts d))) ds))
    (map (fun m => want_metric (r_version2 r) (m_desc m) (metric_dom hp m)) ms) (concat (map (want_values hp (r_version2 r)) ms))) V -> veq (want_view hp r) V.
Proof. intros <- <-. exact (fun H => H). Qed.

(** ** singleton_counter *)
Definition sc_m : metric := get no_metric (NewPCPCounter 0 (str "counter") [str "A Simple Metric"]).
Definition sc_r : registry := (add_metric (w_heap (new_metric w_init 1 sc_m)) new_registry 1 sc_m).2.
Lemma sc_runs loc gen pid n : surely w_init (singleton_counter loc gen pid n)
  (fun w => running w loc (hash (str "singletoncounter") PCPClusterIDBitLength) sc_r gen pid /\ is_m w 1 (m_desc sc_m) MCounter None (one (VInt64 (to_signed 64 (Z.of_nat n))))).
Proof.
  unfold singleton_counter. cbn [app]. change (NewPCPCounter 0 _ _) with (Some sc_m).
  eapply (s_new w_init 1 sc_m _ _ 100); [exact okw_init|reflexivity|reflexivity| |].
  { eapply (cr_counter _ _ 0 (str "counter") [str "A Simple Metric"]); [cbv; intuition discriminate|reflexivity]. }
  intros O1. eapply s_client; [exact O1|reflexivity|reflexivity|]. intros O2.
  eapply s_register with (r := new_registry) (m := sc_m) (r' := sc_r); [exact O2|reflexivity|reflexivity|reflexivity|]. intros O3.
  eapply s_start with (r := sc_r); [exact O3|reflexivity|reflexivity|apply startableb_ok; vm_compute; reflexivity|].
  intros w1 RU Hi Hm.
  eapply (surely_rounds (fun i w => running w loc (hash (str "singletoncounter") PCPClusterIDBitLength) sc_r gen pid /\ is_m w 1 (m_desc sc_m) MCounter None (one (VInt64 (to_signed 64 (Z.of_nat i)))))).
  - split; [exact RU|]. eapply is_m_ext; [apply (Hm 1%nat sc_m); reflexivity|]. intros [i|]; reflexivity.
  - clear w1 RU Hi Hm. intros i w1 [RU M]. eapply (s_up _ _ _ _ _ _ 1); [exact RU|apply reg1; vm_compute; reflexivity|exact M|reflexivity|reflexivity|].
    intros w2 RU2 _ _ M2. apply surely_nil. split; [exact RU2|]. eapply is_m_ext; [exact M2|]. intros [j|]; [reflexivity|]. cbn. do 2 f_equal.
    rewrite Nat2Z.inj_succ. unfold Z.succ. apply to_signed_add. lia.
Qed.

(** ** simple *)
Definition si_m : metric := get no_metric (NewPCPSingletonMetric (VInt 42) (str "simple.counter") Int32Type CounterSemantics OneUnit
     [str "A Simple Metric"; str "This is a simple counter metric to demonstrate the speed API"]).
Definition si_r : registry := (add_metric (w_heap (new_metric w_init 1 si_m)) new_registry 1 si_m).2.
Lemma si_runs loc gen pid : surely w_init (simple loc gen pid)
  (fun w => running w loc (hash (str "simple") PCPClusterIDBitLength) si_r gen pid /\ is_m w 1 (m_desc si_m) MSingleton None (one (VInt32 42))).
Proof.
  unfold simple. cbn [app]. change (NewPCPSingletonMetric _ _ _ _ _ _) with (Some si_m).
  eapply (s_new w_init 1 si_m _ _ 100); [exact okw_init|reflexivity|reflexivity| |].
  { eapply (cr_singleton _ _ (VInt 42) (str "simple.counter") Int32Type CounterSemantics OneUnit _); [cbv; intuition discriminate|cbv; intuition discriminate|apply get_some; reflexivity]. }
  intros O1. eapply s_client; [exact O1|reflexivity|reflexivity|]. intros O2.
  eapply s_register with (r := new_registry) (m := si_m) (r' := si_r); [exact O2|reflexivity|reflexivity|reflexivity|]. intros O3.
  eapply s_start with (r := si_r); [exact O3|reflexivity|reflexivity|apply startableb_ok; vm_compute; reflexivity|].
  intros w1 RU Hi Hm. apply surely_nil. split; [exact RU|]. eapply is_m_ext; [apply (Hm 1%nat si_m); reflexivity|]. intros [i|]; reflexivity.
Qed.

(** ** singleton_string *)
Definition ss_m : metric := get no_metric (NewPCPSingletonMetric (VInt 10) demo_name Int32Type CounterSemantics OneUnit []).
Definition ss_hp : heap := mkHeap (h_indoms (w_heap w_init)) (<[1%nat := ss_m]> ∅).
Definition ss_r : registry := (add_metric (w_heap w_init) new_registry 1 ss_m).2.
Lemma ss_runs loc gen pid n : surely w_init (singleton_string loc gen pid n)
  (fun w => running w loc (hash (str "strings") PCPClusterIDBitLength) ss_r gen pid /\ is_m w 1 (m_desc ss_m) MSingleton None (one (VInt32 (to_signed 32 (10 + Z.of_nat n))))).
Proof.
  unfold singleton_string. eapply s_client; [exact okw_init|reflexivity|reflexivity|]. intros O2. cbn [app].
  eapply (s_string _ _ 1 1 demo_name [] (VInt 10) Int32Type CounterSemantics OneUnit new_registry ss_hp ss_r);
    [exact O2|vm_compute; reflexivity|reflexivity|reflexivity|reflexivity|cbv; intuition discriminate|cbv; intuition discriminate|reflexivity|]. intros O3.
  eapply s_start with (r := ss_r); [exact O3|reflexivity|reflexivity|apply startableb_ok; vm_compute; reflexivity|].
  intros w1 RU Hi Hm.
  eapply (surely_rounds (fun i w => running w loc (hash (str "strings") PCPClusterIDBitLength) ss_r gen pid /\ is_m w 1 (m_desc ss_m) MSingleton None (one (VInt32 (to_signed 32 (10 + Z.of_nat i)))))).
  - split; [exact RU|]. eapply is_m_ext; [apply (Hm 1%nat ss_m); reflexivity|]. intros [i|]; reflexivity.
  - clear w1 RU Hi Hm. intros i w1 [RU M]. pose proof (to_signed_range 32 (to_signed 32 (10 + Z.of_nat i) + 1) ltac:(lia)) as HR.
    eapply (s_set _ _ _ _ _ _ 1 _ RU) with (mst := true) (v := VInt32 (to_signed 32 (to_signed 32 (10 + Z.of_nat i) + 1)));
      [apply reg1; vm_compute; reflexivity|exact M| |exact HR|discriminate|reflexivity|reflexivity|by apply plain_ok|].
    { rewrite (read_single w1 1 _ _ _ M eq_refl). reflexivity. }
    intros w2 RU2 _ _ M2. apply surely_nil. split; [exact RU2|]. eapply is_m_ext; [exact M2|]. intros [j|]; [reflexivity|]. unfold one. rewrite to_signed_add by lia. apply (f_equal (fun z => Some (VInt32 z))).
    apply (f_equal (to_signed 32)). lia.
Qed.

(** ** simple_string_metric *)
Definition bn_m : metric := get no_metric (NewPCPSingletonMetric (VStr (bat 0)) (str "bat.names") StringType InstantSemantics OneUnit []).
Definition bn_hp : heap := mkHeap (h_indoms (w_heap w_init)) (<[1%nat := bn_m]> ∅).
Definition bn_r : registry := (add_metric (w_heap w_init) new_registry 1 bn_m).2.
Lemma bat_short i : zlen (bat i) <= 256.
Proof.
  unfold bat. assert (i mod length bat_names < length bat_names)%nat as H by (apply Nat.mod_upper_bound; discriminate).
  generalize dependent (i mod length bat_names)%nat. intros k H. do 6 (destruct k as [|k]; [cbv; discriminate|]). cbn in H. lia.
Qed.
Lemma bn_runs loc gen pid n : surely w_init (simple_string_metric loc gen pid n)
  (fun w => running w loc (hash (str "stringtest") PCPClusterIDBitLength) bn_r gen pid /\ is_m w 1 (m_desc bn_m) MSingleton None (one (VStr (bat (n - 1))))).
Proof.
  unfold simple_string_metric. eapply s_client; [exact okw_init|reflexivity|reflexivity|]. intros O2. cbn [app].
  eapply (s_string _ _ 1 1 (str "bat.names") [] (VStr (bat 0)) StringType InstantSemantics OneUnit new_registry bn_hp bn_r);
    [exact O2|vm_compute; reflexivity|reflexivity|reflexivity|reflexivity|exact I|cbv; intuition discriminate|reflexivity|]. intros O3.
  eapply s_start with (r := bn_r); [exact O3|reflexivity|reflexivity|apply startableb_ok; vm_compute; reflexivity|].
  intros w1 RU Hi Hm.
  eapply (surely_rounds (fun i w => running w loc (hash (str "stringtest") PCPClusterIDBitLength) bn_r gen pid /\ is_m w 1 (m_desc bn_m) MSingleton None (one (VStr (bat (i - 1)))))).
  - split; [exact RU|]. eapply is_m_ext; [apply (Hm 1%nat bn_m); reflexivity|]. intros [i|]; reflexivity.
  - clear w1 RU Hi Hm. intros i w1 [RU M].
    eapply (s_set _ _ _ _ _ _ 1 _ RU) with (mst := true) (v := VStr (bat i));
      [apply reg1; vm_compute; reflexivity|exact M|reflexivity|exact I|intros s [= <-]; apply bat_short|reflexivity|reflexivity|by apply plain_ok|].
    intros w2 RU2 _ _ M2. apply surely_nil. split; [exact RU2|]. eapply is_m_ext; [exact M2|]. intros [j|]; [reflexivity|]. unfold one. cbn [resolve].
    by rewrite Nat.sub_1_r.
Qed.

(** ** instance_string *)
Definition la_names : list gostring := [str "go"; str "javascript"; str "php"].
Definition la_d : indom := get no_indom (new_indom (str "language") la_names []).
Definition la_init : gmap gostring goval := <[str "go" := VInt 1]> (<[str "javascript" := VInt 100]> (<[str "php" := VInt 10]> ∅)).
Definition la_m : metric := get no_metric (NewPCPInstanceMetric la_init (str "language.users") 1 la_d Uint64Type CounterSemantics OneUnit [] (map_to_list (id_insts la_d)).*1).
Definition la_hp1 : heap := mkHeap (<[1%nat := la_d]> (h_indoms (w_heap w_init))) ∅.
Definition la_r1 : registry := (add_indom_by_name (w_heap w_init) new_registry 1 (str "language") la_names).2.
Definition la_r : registry := (add_metric la_hp1 la_r1 1 la_m).2.
Definition la_val (n : nat) (i : gostring) : Z :=
  if decide (i = str "go") then to_unsigned 64 (2 ^ Z.of_nat n) else if decide (i = str "javascript") then to_unsigned 64 (100 + 10 * Z.of_nat n) else to_unsigned 64 (10 + Z.of_nat n).
Definition la_at (n : nat) (g : option gostring -> option goval) : Prop := forall i, i ∈ la_names -> g (Some i) = Some (VUint64 (la_val n i)).

Lemma change_ok w loc cluster r gen pid D g d i z F ss (Q : world -> Prop) : running w loc cluster r gen pid -> registered r 1 -> is_m w 1 D MInstance (Some 1%nat) g ->
  h_indoms (w_heap w) !! 1%nat = Some d -> has_instance d i = true -> md_type D = Uint64Type -> g (Some i) = Some (VUint64 z) ->
  (forall w1, running w1 loc cluster r gen pid -> h_indoms (w_heap w1) = h_indoms (w_heap w) -> is_m w1 1 D MInstance (Some 1%nat) (upd1 g i (VUint64 (to_unsigned 64 (F z)))) -> surely w1 ss Q) ->
  surely w (change i F :: ss) Q.
Proof.
  intros RU Rg M Hd Hi Ht Hg H. pose proof (to_unsigned_range 64 (F z) ltac:(lia)) as HR.
  eapply (s_set_inst _ _ _ _ _ _ 1 _ RU Rg _ true) with (v := VUint64 (to_unsigned 64 (F z))) (i := i); [exact M|exact Hd| |exact Hi|exact HR|discriminate|by rewrite Ht|by rewrite Ht|by apply plain_ok|].
  - rewrite (read_instance _ _ _ _ _ _ _ _ RU Rg _ _ _ _ _ M Hd Hi Hg). reflexivity.
  - intros w1 RU1 Hin _ M1. by apply H.
Qed.
Lemma to_unsigned_mul w a b : to_unsigned w (to_unsigned w a * b) = to_unsigned w (a * b).
Proof. unfold to_unsigned. apply Zmult_mod_idemp_l. Qed.
Lemma to_unsigned_add w a b : to_unsigned w (to_unsigned w a + b) = to_unsigned w (a + b).
Proof. unfold to_unsigned. apply Zplus_mod_idemp_l. Qed.

Lemma la_runs loc gen pid n : surely w_init (instance_string loc gen pid n)
  (fun w => running w loc (hash (str "strings") PCPClusterIDBitLength) la_r gen pid /\ h_indoms (w_heap w) !! 1%nat = Some la_d /\
     exists g, is_m w 1 (m_desc la_m) MInstance (Some 1%nat) g /\ la_at n g).
Proof.
  unfold instance_string. eapply s_client; [exact okw_init|reflexivity|reflexivity|]. intros O2. cbn [app].
  eapply (s_string_inst _ _ 1 1 (str "language.users") (str "language") la_names la_init Uint64Type CounterSemantics OneUnit new_registry la_d la_hp1 la_r1 la_m la_r);
    [exact O2|vm_compute; reflexivity|reflexivity|reflexivity|reflexivity| |cbv; intuition discriminate|reflexivity|apply get_some; vm_compute; reflexivity|vm_compute; reflexivity|reflexivity|apply get_some; vm_compute; reflexivity|vm_compute; reflexivity|].
  { intros i v H. unfold la_init in H. apply lookup_insert_Some in H as [[_ <-]|[_ H]]; [cbv; intuition discriminate|].
    apply lookup_insert_Some in H as [[_ <-]|[_ H]]; [cbv; intuition discriminate|]. apply lookup_insert_Some in H as [[_ <-]|[_ H]]; [cbv; intuition discriminate|]. done. }
  intros O3. eapply s_start with (r := la_r); [exact O3|reflexivity|reflexivity|apply startableb_ok; vm_compute; reflexivity|].
  intros w1 RU Hi Hm.
  eapply (surely_rounds (fun n w => running w loc (hash (str "strings") PCPClusterIDBitLength) la_r gen pid /\ h_indoms (w_heap w) !! 1%nat = Some la_d /\
     exists g, is_m w 1 (m_desc la_m) MInstance (Some 1%nat) g /\ la_at n g)).
  - split; [exact RU|]. split; [rewrite Hi; reflexivity|]. exists (val_at la_m). split; [apply (Hm 1%nat la_m); reflexivity|].
    intros i H. unfold la_names in H. repeat (apply elem_of_cons in H as [->|H]; [vm_compute; reflexivity|]). by apply elem_of_nil in H.
  - clear w1 RU Hi Hm O2 O3. intros k w1 (RU & Hd & g & M & G). assert (registered la_r 1) as Rg by (apply reg1; vm_compute; reflexivity).
    assert (forall i, i ∈ la_names -> has_instance la_d i = true) as Hin.
    { intros i H. unfold la_names in H. repeat (apply elem_of_cons in H as [->|H]; [vm_compute; reflexivity|]). by apply elem_of_nil in H. }
    assert (str "go" ∈ la_names) as I1 by left. assert (str "javascript" ∈ la_names) as I2 by (right; left). assert (str "php" ∈ la_names) as I3 by (right; right; left).
    assert (str "go" <> str "javascript") as N1 by (vm_compute; discriminate). assert (str "go" <> str "php") as N2 by (vm_compute; discriminate). assert (str "javascript" <> str "php") as N3 by (vm_compute; discriminate).
    unfold la_names in G. set (go := str "go") in *. set (js := str "javascript") in *. set (php := str "php") in *.
    eapply change_ok; [exact RU|exact Rg|exact M|exact Hd|by apply Hin|reflexivity|by apply G|]. intros w2 RU2 Hd2 M2.
    eapply change_ok; [exact RU2|exact Rg|exact M2|rewrite Hd2; exact Hd|by apply Hin|reflexivity| |].
    { unfold upd1. rewrite decide_False by congruence. by apply G. }
    intros w3 RU3 Hd3 M3.
    eapply change_ok; [exact RU3|exact Rg|exact M3|rewrite Hd3, Hd2; exact Hd|by apply Hin|reflexivity| |].
    { unfold upd1. rewrite !decide_False by congruence. by apply G. }
    intros w4 RU4 Hd4 M4. apply surely_nil. split; [exact RU4|]. split; [rewrite Hd4, Hd3, Hd2; exact Hd|]. eexists. split; [exact M4|].
    intros i H. unfold upd1, la_val. fold go js php.
    assert (i = go \/ i = js \/ i = php) as [->|[->| ->]].
    { unfold la_names in H. fold go js php in H. repeat (apply elem_of_cons in H as [->|H]; [tauto|]). by apply elem_of_nil in H. }
    + rewrite !(decide_False (P := _ = Some _)) by congruence. rewrite !decide_True by reflexivity. rewrite to_unsigned_mul. do 3 f_equal. rewrite Nat2Z.inj_succ, Z.pow_succ_r by lia. lia.
    + rewrite (decide_False (P := Some js = Some php)) by congruence. rewrite (decide_True (P := Some js = Some js)) by reflexivity. rewrite (decide_False (P := js = go)) by congruence. rewrite decide_True by reflexivity.
      rewrite to_unsigned_add. do 3 f_equal. lia.
    + rewrite (decide_True (P := Some php = Some php)) by reflexivity. rewrite !decide_False by congruence. rewrite to_unsigned_add. do 3 f_equal. lia.
Qed.

(** ** acme, serial() *)
Lemma s_new_inst w mp ip d dn insts dd vals name t s u desc ord m ss (Q : world -> Prop) ip0 : okw w -> h_metrics (w_heap w) !! mp = None -> h_indoms (w_heap w) !! ip0 = None ->
  h_indoms (w_heap w) !! ip = Some d -> new_indom dn insts dd = Some d -> NoDup insts -> ord ≡ₚ insts -> (forall i v, vals !! i = Some v -> wf_goval v) -> desc_args t s u ->
  NewPCPInstanceMetric vals name ip d t s u desc (map_to_list (id_insts d)).*1 = Some m ->
  (okw (new_metric w mp m) -> surely (new_metric w mp m) ss Q) ->
  surely w (GNew mp (NewPCPInstanceMetric vals name ip d t s u desc ord) :: ss) Q.
Proof.
  intros O Hm H0 Hd Hn ND Ho Hv Ha E H.
  assert (ord ≡ₚ (map_to_list (id_insts d)).*1) as P.
  { rewrite (dom_list _ _ _ _ Hn ND), Ho. assert ((map (fun i => (i, inst_id i)) insts).*1 = insts) as ->; [|reflexivity]. clear. induction insts as [|i l IH]; [reflexivity|]. cbn. f_equal. exact IH. }
  rewrite (new_instance_perm _ _ _ _ _ _ _ _ _ _ _ E P). eapply s_new; [exact O|exact Hm|exact H0| |exact H]. eapply (cr_instance _ _ vals name ip d t s u desc _ m Hv Ha Hd); [reflexivity|exact E].
Qed.
Lemma all_zero_wf l i v : all_zero l !! i = Some v -> wf_goval v.
Proof.
  unfold all_zero. intros H. apply elem_of_list_to_map_2 in H. apply elem_of_list_fmap in H as (j & E & _). injection E as _ ->. cbv. intuition discriminate.
Qed.
Definition ac_d : indom := get no_indom acme_indom.
Definition ac_m1 : metric := get no_metric (NewPCPInstanceMetric acme_zero (str "products.count") 1 ac_d Uint64Type CounterSemantics OneUnit
     [str "Acme factory product throughput"; acme_long] (map_to_list (id_insts ac_d)).*1).
Definition ac_m2 : metric := get no_metric (NewPCPInstanceMetric acme_zero (str "products.time") 1 ac_d Uint64Type CounterSemantics MicrosecondUnit
     [str "Machine time spent producing Acme products"] (map_to_list (id_insts ac_d)).*1).
Definition ac_hp : heap := mkHeap (<[1%nat := ac_d]> (h_indoms (w_heap w_init))) (<[2%nat := ac_m2]> (<[1%nat := ac_m1]> ∅)).
Definition ac_r1 : registry := get new_registry (add_indom new_registry 1 ac_d).
Definition ac_r2 : registry := (add_metric ac_hp ac_r1 1 ac_m1).2.
Definition ac_r : registry := (add_metric ac_hp ac_r2 2 ac_m2).2.
Definition made (n : gostring) : Z := if decide (n = str "Anvils") then 42 else 0.
Definition ac_at (f : gostring -> Z) (g : option gostring -> option goval) : Prop := forall i, i ∈ acme_names -> g (Some i) = Some (VUint64 (f i)).
Lemma ac_nodup : NoDup acme_names.
Proof. apply (bool_decide_eq_true_1 _). vm_compute. reflexivity. Qed.
Lemma ac_vals i v : acme_zero !! i = Some v -> wf_goval v.
Proof.
  unfold acme_zero. intros H. apply lookup_insert_Some in H as [[_ <-]|[_ H]]; [cbv; intuition discriminate|].
  apply lookup_insert_Some in H as [[_ <-]|[_ H]]; [cbv; intuition discriminate|]. apply lookup_insert_Some in H as [[_ <-]|[_ H]]; [cbv; intuition discriminate|]. done.
Qed.
Lemma ac_new : new_indom (str "Acme Products") acme_names [str "Acme products"; str "Most popular products produced by the Acme Corporation"] = Some ac_d.
Proof. apply (get_some no_indom). vm_compute. reflexivity. Qed.
Lemma ac_in (P : gostring -> Prop) : P (str "Anvils") -> P (str "Rockets") -> P (str "Giant_Rubber_Bands") -> forall i, i ∈ acme_names -> P i.
Proof. intros H1 H2 H3 i H. unfold acme_names in H. repeat (apply elem_of_cons in H as [->|H]; [assumption|]). by apply elem_of_nil in H. Qed.
Lemma ac_runs loc gen pid o1 o2 : o1 ≡ₚ acme_names -> o2 ≡ₚ acme_names -> surely w_init (acme_serial loc gen pid o1 o2)
  (fun w => running w loc (hash (str "acme") PCPClusterIDBitLength) ac_r gen pid /\ h_indoms (w_heap w) !! 1%nat = Some ac_d /\
     (exists g, is_m w 1 (m_desc ac_m1) MInstance (Some 1%nat) g /\ ac_at made g) /\ exists g, is_m w 2 (m_desc ac_m2) MInstance (Some 1%nat) g /\ ac_at (fun _ => 0) g).
Proof.
  intros P1 P2. unfold acme_serial. unfold acme_indom at 2 3. rewrite ac_new. unfold acme_indom. rewrite ac_new. cbn [app mbind option_bind].
  eapply s_indom; [exact okw_init|reflexivity|exact ac_new|]. intros O1.
  eapply (s_new_inst _ 1 1 ac_d) with (ip0 := 100%nat) (m := ac_m1); [exact O1|reflexivity|reflexivity|reflexivity|exact ac_new|exact ac_nodup|exact P1|exact ac_vals|cbv; intuition discriminate|apply get_some; vm_compute; reflexivity|]. intros O2.
  eapply (s_new_inst _ 2 1 ac_d) with (ip0 := 100%nat) (m := ac_m2); [exact O2|reflexivity|reflexivity|reflexivity|exact ac_new|exact ac_nodup|exact P2|exact ac_vals|cbv; intuition discriminate|apply get_some; vm_compute; reflexivity|]. intros O3.
  eapply s_client; [exact O3|reflexivity|reflexivity|]. intros O4.
  eapply s_register_indom with (r := new_registry) (d := ac_d) (r' := ac_r1); [exact O4|reflexivity|reflexivity|apply get_some; vm_compute; reflexivity|]. intros O5.
  eapply s_register with (r := ac_r1) (m := ac_m1) (r' := ac_r2); [exact O5|reflexivity|reflexivity|vm_compute; reflexivity|]. intros O6.
  eapply s_register with (r := ac_r2) (m := ac_m2) (r' := ac_r); [exact O6|reflexivity|reflexivity|vm_compute; reflexivity|]. intros O7.
  eapply s_start with (r := ac_r); [exact O7|reflexivity|reflexivity|apply startableb_ok; vm_compute; reflexivity|]. clear O1 O2 O3 O4 O5 O6 O7.
  intros w1 RU Hi Hm. pose proof (Hm 1%nat ac_m1 eq_refl) as M1. pose proof (Hm 2%nat ac_m2 eq_refl) as M2. clear Hm.
  assert (h_indoms (w_heap w1) !! 1%nat = Some ac_d) as Hd by (rewrite Hi; reflexivity). clear Hi.
  eapply (s_set_inst _ _ _ _ _ _ 1 _ RU) with (mst := false) (v := VInt 42) (x := VUint64 42) (i := str "Anvils");
    [apply reg1; vm_compute; reflexivity|exact M1|exact Hd|reflexivity|vm_compute; reflexivity|cbv; intuition discriminate|discriminate|reflexivity|reflexivity|by apply plain_ok|].
  intros w2 RU2 Hd2 K N1. apply surely_nil. split; [exact RU2|]. split; [by rewrite Hd2|]. split.
  - eexists. split; [exact N1|]. unfold ac_at. apply ac_in; vm_compute; reflexivity.
  - exists (val_at ac_m2). split; [apply K; [discriminate|exact M2]|]. unfold ac_at. apply ac_in; vm_compute; reflexivity.
Qed.
