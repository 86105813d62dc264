(** C66: the example program examples/http_counter counts the requests.
    Vocabulary: [http_counter], [request] (SamplesHttp.v): the program up to MustStart, and
    what the handler of a request does to the counter; [surely], [file_shows] as in
    PropsSamples.v; [cstep], [m_start], [m_done], [mem_world] as in PropsConc.v;
    [half_written], [updating] as in PropsMid.v. [requests css]: goroutine number [i]
    handles [length (css !! i)] requests, one after the other; [answered m]: how many
    handlers have returned from Up. *)
From Verif Require Import Base BaseFacts Floats GoVal MetricType ByteWriter Hash Units Indom Metrics Registry Prog
  Client Mmvdump View RegInv World OpRuns RegFacts WorldInv Sync SyncView MetricFacts SyncLive OpFacts Life Example
  Samples SamplesFacts SamplesRun SamplesView PropsSamples Locks LocksCut Conc ConcRuns ConcFacts ConcLive MidUpdate MidRun MidView PropsMid SamplesHttp SamplesHttpMid.
From stdpp Require Import relations.
Local Open Scope Z_scope.

(** The program starts without an error, and then [P] holds at every moment of every execution of every set of handlers. *)
Definition while_serving (loc : gostring) (gen pid : Z) (P : world -> list (list mcall) -> machine -> Prop) : Prop :=
  surely w_init (http_counter loc gen pid) (fun w => forall css m, requests css -> rtc (cstep (w_heap w)) (m_start (world_mem w) css) m -> P w css m).
(** The file with one counter, type 2 (int64), semantics 1 (counter). *)
Definition req_view (n : Z) : view := one_value (metric_rec 64 (str "http.requests") 2 1 count_unit None (Some (str "Number of Requests")) None) (VInt64 n).
Lemma req_shows w loc gen pid n : file_shows w loc (str "example") 1 (tocCount hc_r) gen pid (mkView [] [] [want_metric false (m_desc hc_m) None] [mkVV (want_metric false (m_desc hc_m) None) None (VInt64 n)]) ->
  file_shows w loc (str "example") 1 3 gen pid (req_view n).
Proof. intros H. eapply file_shows_veq; [|exact H]. split_and!; reflexivity. Qed.

(** While no handler is inside Up the file shows the number of requests answered, and no handler has panicked. *)
Theorem C66_counts loc gen pid : while_serving loc gen pid (fun w css m => (forall i t, mc_thr m !! i = Some t -> t_cur t = None) ->
  file_shows (mem_world w (mc_mem m)) loc (str "example") 1 3 gen pid (req_view (to_signed 64 (answered m))) /\
  forall i t c r, mc_thr m !! i = Some t -> (c, r) ∈ t_done t -> r.1 = ROk).
Proof.
  eapply surely_mono; [apply hc_runs|]. intros w SV css m RQ H Q. destruct (quiet_served _ _ _ _ _ SV css RQ m H Q) as [[RU M] HR]. split; [|intros i t c r Hi Hc; by eapply HR].
  apply req_shows. pose proof (single_shows _ _ _ _ _ _ _ _ _ _ (str "http.requests") RU M ltac:(vm_compute; reflexivity) ltac:(vm_compute; reflexivity)) as S0. exact S0.
Qed.

(** Every request is answered, whatever the other handlers do: from every moment on the handlers can finish, and they cannot go on forever. *)
Theorem C66_all_answered loc gen pid : while_serving loc gen pid (fun w css m =>
  (exists m', rtc (cstep (w_heap w)) m m' /\ m_done m' /\ answered m' = Z.of_nat (length (concat css))) /\ Acc (flip (cstep (w_heap w))) m).
Proof.
  eapply surely_mono; [apply hc_runs|]. intros w SV css m RQ H. destruct (sv_metric _ _ _ _ _ SV) as (m0 & Hm & Hk & _ & L).
  assert (forall mp' m', mp' ∈ [1%nat] -> h_metrics (w_heap w) !! mp' = Some m' -> live (w_files w) m') as LL. { intros mp' m' Hin Hm'. apply elem_of_list_singleton in Hin as ->. assert (m' = m0) as -> by congruence. exact L. }
  destruct (metrics_complete w [1%nat] (apart_one _ _ _) LL _ _ (reqs_ok _ _ _ _ _ SV _ RQ) H) as [(m' & H1 & D1) A]. split; [|exact A]. exists m'. split_and!; auto.
  assert (rtc (cstep (w_heap w)) (m_start (world_mem w) css) m') as H2 by (eapply rtc_transitive; [exact H|exact H1]).
  by destruct (all_served _ _ _ _ _ SV css m' RQ H2 D1) as (_ & E & _).
Qed.

(** At any moment, and so also if the program ends: the file is complete, and its number is made of the first bytes of
    the next number and the rest of the number of requests answered; it is one of the two unless that number ends in the byte 255. *)
Lemma one_differs a b c : le_enc 8 (a + 1) !! b <> le_enc 8 a !! b -> le_enc 8 (a + 1) !! c <> le_enc 8 a !! c -> a mod 256 <> 255 -> b = c.
Proof.
  intros Hb Hc N. change (le_enc 8 (a + 1)) with (zbyte (a + 1) :: le_enc 7 ((a + 1) / 256)) in *. change (le_enc 8 a) with (zbyte a :: le_enc 7 (a / 256)) in *.
  assert ((a + 1) / 256 = a / 256) as E. { pose proof (Z.div_mod a 256 ltac:(lia)). pose proof (Z.mod_pos_bound a 256 ltac:(lia)). symmetry. apply (Z.div_unique _ _ _ (a mod 256 + 1)); lia. }
  rewrite E in *. destruct b, c; cbn [lookup list_lookup] in *; try reflexivity; exfalso; [by apply Hc|by apply Hb|by apply Hb].
Qed.
Theorem C66_any_moment_partial loc gen pid : while_serving loc gen pid (fun w css m => exists u,
  file_shows (mem_world w (mc_mem m)) loc (str "example") 1 3 gen pid (req_view u) /\
  let a := to_signed 64 (answered m) in half_written (VInt64 a) (VInt64 (to_signed 64 (a + 1))) (VInt64 u) /\ (a mod 256 <> 255 -> u = a \/ u = a + 1)).
Proof.
  eapply surely_mono; [apply hc_runs|]. intros w SV css m RQ H. destruct (mid_shows _ _ _ _ _ SV css RQ m H) as (u & Hs & HW & RU). exists u. split; [by apply req_shows|].
  unfold count, next_count in HW. cbn zeta. change (0 + answered m) with (answered m) in HW. split; [exact HW|]. pose proof (to_signed_range 64 (answered m) ltac:(lia)) as RA. revert HW RA. generalize (to_signed 64 (answered m)) as a. intros a HW RA N.
  assert (a + 1 < 2 ^ 63) as B. { unfold in_signed in RA. change (64 - 1) with 63 in RA. destruct (decide (a = 2 ^ 63 - 1)) as [->|]; [exfalso; apply N; reflexivity|lia]. }
  assert (to_signed 64 (a + 1) = a + 1) as E by (apply to_signed_sum; auto; lia). rewrite E in HW. assert (in_signed 64 (a + 1)) as RB by (rewrite <- E; apply to_signed_range; lia).
  destruct (C64_number_partial Int64Type _ _ _ (le_enc 8 (a + 1)) (le_enc 8 a) HW) as [X|X]; try (split; [reflexivity|assumption]); try reflexivity; [intros []| |injection X; auto|injection X; auto].
  intros b c Hb Hc. by eapply one_differs.
Qed.

(** It is not the case that the file left by the program shows the number of requests answered or the next one: os.Exit
    can come when 255 requests are answered and another is being counted, and the file then says 0. *)
Theorem C66_left_file_refuted loc gen pid : surely w_init (http_counter loc gen pid) (fun w => exists m, rtc (cstep (w_heap w)) (m_start (world_mem w) [replicate 256 request]) m /\
  answered m = 255 /\ (exists p, updating m 0 1 p) /\ file_shows (mem_world w (mc_mem m)) loc (str "example") 1 3 gen pid (req_view 0)).
Proof.
  eapply surely_mono; [apply hc_runs|]. intros w SV. destruct (mid_request _ _ _ _ 255 SV eq_refl) as (m & H1 & H2 & H3 & H4). exists m. split; [|split; [exact H2|]; split; [exact H3|by apply req_shows]].
  change (replicate 256 request) with (replicate 255 request ++ [request]). exact H1.
Qed.

(** The program does start, and three requests of two connections are counted. *)
Definition ex_reqs : list (list mcall) := [[request; request]; [request]].
Lemma ex_reqs_ok : requests ex_reqs.
Proof. intros l c Hl Hc. unfold ex_reqs in Hl. repeat (apply elem_of_cons in Hl as [->|Hl]; [repeat (apply elem_of_cons in Hc as [->|Hc]; [reflexivity|]); by apply elem_of_nil in Hc|]). by apply elem_of_nil in Hl. Qed.
Example C66_ex : exists w, exec w_init (http_counter (str "/var/tmp/mmv/example") 7 99) true w /\
  exists m, rtc (cstep (w_heap w)) (m_start (world_mem w) ex_reqs) m /\ m_done m /\ file_shows (mem_world w (mc_mem m)) (str "/var/tmp/mmv/example") (str "example") 1 3 7 99 (req_view 3).
Proof.
  destruct (C66_all_answered (str "/var/tmp/mmv/example") 7 99) as [[w E] H]. exists w. split; [exact E|]. destruct (H _ _ E) as [_ K]. destruct (K ex_reqs _ ex_reqs_ok (rtc_refl _ _)) as [(m & H1 & H2 & H3) _].
  exists m. split; [exact H1|]. split; [exact H2|]. destruct (C66_counts (str "/var/tmp/mmv/example") 7 99) as [_ K2]. destruct (K2 _ _ E) as [_ K3].
  destruct (K3 ex_reqs m ex_reqs_ok H1) as [Sh _]; [intros i t Hi; by apply (H2 i t)|]. rewrite H3 in Sh. exact Sh.
Qed.

Print Assumptions C66_counts.
Print Assumptions C66_all_answered.
Print Assumptions C66_any_moment_partial.
Print Assumptions C66_left_file_refuted.
Print Assumptions C66_ex.
