(** Facts about the command mmvdump. *)
From Verif Require Import Base BaseFacts Floats GoVal MetricType ByteWriter Hash Units Indom Metrics Registry Prog
  Client Mmvdump Ileave ProgProofs Exec Events StartEvents BufFacts Tiling StartGood StartLayout StartFinal StartDone
  View Sections StartView RegInv Update World OpRuns RegFacts WorldInv Sync StartLive FloatFacts ValueFacts MetricFacts SyncLive SyncView OpFacts
  Crash Life Layout DumpSched DumpFacts DumpSeq DumpTrunc DumpBad DumpRun DumpText TextFacts TextView TextShow DumpCmd.

(** The arguments name [file]: it is the first word and does not look like a flag, or follows two dashes. *)
Definition names_file (args : list gostring) (file : gostring) : Prop :=
  exists rest, (args = file :: rest /\ (head file <> Some dash \/ file = [dash])) \/ args = [dash; dash] :: file :: rest.

Lemma names_parse args file : names_file args file -> exists rest, parse_flags args = Some (file :: rest).
Proof.
  intros (rest & [[-> H]| ->]); exists rest; [|reflexivity]. destruct file as [|a [|b t]]; [reflexivity|reflexivity|]. cbn. rewrite bool_decide_false; [reflexivity|].
  intros ->. destruct H as [H|H]; [by apply H|discriminate].
Qed.
Lemma parse_names args file rest : parse_flags args = Some (file :: rest) -> names_file args file.
Proof.
  intros H. destruct args as [|[|a [|b t]] args]; cbn in H; try discriminate.
  - injection H as <- <-. exists args. left. split; [reflexivity|]. left. discriminate.
  - injection H as <- <-. exists args. left. split; [reflexivity|]. destruct (decide (a = dash)) as [-> |N]; [by right|]. left. cbn. congruence.
  - destruct (bool_decide (a = dash)) eqn:E; [apply bool_decide_eq_true in E as ->|apply bool_decide_eq_false in E].
    + destruct (bool_decide (b = dash /\ t = [])) eqn:E; [|discriminate]. apply bool_decide_eq_true in E as [-> ->]. injection H as ->. exists rest. by right.
    + injection H as <- <-. exists args. left. split; [reflexivity|]. left. cbn. congruence.
Qed.

(** What a run on a named file is. *)
Lemma cmd_named fs args file data out e : names_file args file -> fs file = Some data -> cmd_run fs args out e <-> exists o, dump_run data o /\ (out, e) = after_dump file o.
Proof.
  intros N F. destruct (names_parse _ _ N) as [rest P]. split.
  - intros R. destruct R as [H|H|f r H H1|f r dt o H H1 H2]; try congruence. assert (f = file) as -> by congruence. assert (dt = data) as -> by congruence.
    exists o. split; [exact H2|]. symmetry. apply surjective_pairing.
  - intros (o & H2 & E). assert (out = (after_dump file o).1) as -> by (by rewrite <- E). assert (e = (after_dump file o).2) as -> by (by rewrite <- E). by econstructor.
Qed.
Lemma cmd_missing fs args file out e : names_file args file -> fs file = None -> cmd_run fs args out e <-> out = [] /\ e = CCrash.
Proof.
  intros N F. destruct (names_parse _ _ N) as [rest P]. split.
  - intros R. destruct R as [H|H|f r H H1|f r dt o H H1 H2]; try congruence. done.
  - intros [-> ->]. by econstructor.
Qed.
Lemma cmd_exists fs args : exists out e, cmd_run fs args out e.
Proof.
  destruct (parse_flags args) as [[|f rest]|] eqn:E; [do 2 eexists; by apply cr_usage| |do 2 eexists; by apply cr_flags].
  destruct (fs f) as [data|] eqn:F; [|do 2 eexists; by eapply cr_unreadable]. destruct (dump_run_total data) as [o Ro]. do 2 eexists. by eapply cr_dump.
Qed.

(** ** While Start runs *)
Lemma no_header data o : readHeader data = None -> dump_run data o -> o = DErr.
Proof. intros E R. destruct R; congruence. Qed.
Lemma gen_neq_header b : u64 8 b <> u64 16 b -> readHeader b = None.
Proof. intros N. unfold readHeader. cbn [dec_header hd_g1 hd_g2]. apply Z.eqb_neq in N. rewrite N. destruct (_ <? _); [reflexivity|]. destruct (bool_decide _); reflexivity. Qed.
Lemma no_toc_run b o : i32 24 b = 0 -> dump_run b o -> o = DErr \/ exists d, o = DOk d /\ empty_dump d /\ hd_toc (du_header d) = 0.
Proof.
  intros HZ R. destruct (readHeader b) as [h|] eqn:E; [|left; by eapply no_header]. right.
  assert (hd_toc h = 0) as Eh.
  { unfold readHeader in E. destruct (_ <? _); [discriminate|]. destruct (bool_decide _); [|discriminate]. destruct (_ =? _); [|discriminate]. injection E as <-. exact HZ. }
  assert (exists d, Dump b = DOk d /\ empty_dump d /\ hd_toc (du_header d) = 0 /\ du_header d = h) as (d & D1 & D2 & D3 & D4).
  { unfold Dump. rewrite E, Eh. cbn. eexists. split; [reflexivity|]. split; [split_and!; reflexivity|auto]. }
  exists d. split; [|auto]. apply (seq_ok_run _ (du_header d) (du_tocs d) _ _ (dump_inv_tocs _ _ D1)); auto. destruct D2 as [-> _]. constructor.
Qed.

Lemma crash_run w cid c r gen pid s o : w_ok w -> w_dead w = false -> w_clients w !! cid = Some c -> w_regs w !! cl_reg c = Some r -> startable (w_heap w) r ->
  gen mod 2 ^ 64 <> 0 -> start_partial (w_heap w) (w_offs w) (start_cfg c r gen pid) s -> dump_run (g_buf s) o ->
  o = DErr \/ (exists d, o = DOk d /\ empty_dump d /\ hd_toc (du_header d) = 0) \/
  exists w1, wstep w (CStart cid gen pid true) ROk w1 /\ file_of w1 c = Some (g_buf s).
Proof.
  intros W Hd Hc Hr Hst Hg (pl & p & Hp & R) Ro. set (k := start_cfg c r gen pid) in *. pose proof (wo_heap _ W) as Hh. pose proof (wo_regs _ W _ _ Hr) as Hro.
  apply gsteps_rsteps in R.
  assert (zlen (g_buf s) = Length r) as HL.
  { pose proof R as R0. apply rsteps_psteps in R0 as (t & _ & Ha). apply acts_buf in Ha. cbn [fst snd] in Ha. rewrite Ha, do_stores_length. cbn [start_state g_buf].
    destruct (start_can_finish (w_heap w) k pl (w_offs w) Hh Hro Hp Hst _ R) as [s' R'].
    destruct (start_complete (w_heap w) c r gen pid pl (w_offs w) s' Hh Hro Hp Hst) as [E _]; [etransitivity; eauto|].
    apply zlen_zeros. change (k_reg k) with r. rewrite <- E. apply zlen_nonneg. }
  assert (24 <= Length r) as HL24.
  { destruct (start_can_finish (w_heap w) k pl (w_offs w) Hh Hro Hp Hst _ R) as [s' R'].
    destruct (start_complete (w_heap w) c r gen pid pl (w_offs w) s' Hh Hro Hp Hst) as [E (d & Hd' & _)]; [etransitivity; eauto|].
    unfold Dump, readHeader in Hd'. destruct (zlen (g_buf s') <? DHeaderLength) eqn:El; [discriminate|]. unfold DHeaderLength in El. lia. }
  destruct (crash_bytes (w_heap w) k pl (w_offs w) Hh Hro Hp Hst (s, p) R) as [H|[[H1 H2]|[H|(s' & R' & E)]]]; cbn [fst] in *.
  - assert (i32 24 (g_buf s) = 0) as HZ. { unfold i32, u32. rewrite H. reflexivity. }
    destruct (no_toc_run _ _ HZ Ro) as [E|E]; auto.
  - left. eapply no_header; [|exact Ro]. apply gen_neq_header. unfold u64. rewrite H1, H2. rewrite le_dec_enc. change (le_dec (zeros 8)) with 0. exact Hg.
  - left. eapply no_header; [|exact Ro]. apply gen_neq_header. apply sub_neq_gen; [lia|exact H].
  - do 2 right.
    assert (rtc (rstep (Length r)) (start_state r (w_offs w) ∅, start_prog k pl) (s', PRet)) as RR by (etransitivity; eauto).
    pose proof (start_safe (w_heap w) k pl (w_offs w) Hh Hro Hp Hst (s', PRet) RR) as Hs. cbn [fst] in Hs.
    set (wr := fresh (dom (f_writers (w_files w)))). set (ino := fresh (dom (f_inodes (w_files w)))).
    exists (started w cid c r wr ino s'). split.
    + apply ws_start; auto; try (apply not_elem_of_dom; apply is_fresh). exists pl. split; [exact Hp|]. split; [|exact Hs]. by apply rsteps_gsteps.
    + unfold file_of. cbn. rewrite lookup_insert. cbn. rewrite lookup_insert. by rewrite E.
Qed.
