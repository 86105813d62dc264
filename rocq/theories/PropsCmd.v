(** C62: the command mmvdump.
    Specification vocabulary: DumpCmd.v ([cmd_run fs args out e]: with files [fs] and arguments [args] some
    interleaving prints [out] and ends in [e]), DumpCmdFacts.v ([names_file]: which file the arguments name),
    TextView.v ([text_of], [header_text], [inst_label]), View.v ([want_view]), Crash.v ([start_partial]: the state
    after some steps of Start). *)
From Verif Require Import Base BaseFacts Floats GoVal MetricType ByteWriter Hash Units Indom Metrics Registry Prog
  Client Mmvdump Ileave ProgProofs Exec Events StartEvents BufFacts Tiling StartGood StartLayout StartFinal StartDone
  View Sections StartView RegInv Update World OpRuns RegFacts WorldInv Sync StartLive FloatFacts ValueFacts MetricFacts SyncLive SyncView OpFacts
  Crash Life Layout Example Witness DumpSched DumpFacts DumpSeq DumpTrunc DumpBad DumpRun DumpText TextFacts TextView TextShow DumpCmd DumpCmdFacts PropsStart.

(** The files of a world. *)
Definition disk (w : world) (p : gostring) : option (list byte) := w_paths w !! p ≫= fun ino => f_inodes (w_files w) !! ino.
Definition file_line (file : gostring) : list byte := str "File      = " ++ file ++ nl.

(** Given the location of a running client, every run prints the file's name and the text of the registered contents, and returns. *)
Theorem C62_client w cid c r gen pid w1 tr w2 args : reachable w -> w_clients w !! cid = Some c -> w_regs w !! cl_reg c = Some r -> startable (w_heap w) r ->
  wstep w (CStart cid gen pid true) ROk w1 -> phist (fun w cl => keeps w cid cl) w1 tr w2 -> names_file args (cl_loc c) ->
  (exists out e, cmd_run (disk w2) args out e) /\
  forall out e, cmd_run (disk w2) args out e -> e = CReturn /\
    exists r' d, w_regs w2 !! cl_reg c = Some r' /\ du_header d = want_hdr (w_heap w2) c r' gen pid /\
      forall f32 f64, exists t, flatten f32 f64 out = file_line (cl_loc c) ++ t /\
        text_of f32 f64 (fun v => if bool_decide (vm_indom (vv_metric v) = 0) then [] else inst_label v) d (want_view (w_heap w2) r') t.
Proof.
  intros R Hc Hr Hs St H N. split; [apply cmd_exists|]. intros out e C.
  destruct (start_hist _ _ _ _ _ _ _ _ _ R Hc Hr Hs St H) as (W2 & S2 & Hr2 & wr & Hc2).
  destruct (synced_text _ _ _ _ W2 S2) as (c' & r' & buf & d & out' & H1 & H2 & H3 & H4 & H5 & _ & H6 & H7). rewrite Hc2 in H1. injection H1 as <-.
  cbn [cl_reg] in H2. rewrite Hr2 in H2. injection H2 as <-.
  destruct (synced_complete _ _ _ _ W2 S2) as (c' & r' & buf1 & d1 & G1 & G2 & G3 & G4 & G5). rewrite Hc2 in G1. injection G1 as <-. assert (buf1 = buf) as -> by congruence.
  pose proof G5 as [HD _ _ HT _]. assert (d1 = d) as -> by congruence.
  assert (disk w2 (cl_loc c) = Some buf) as Hb by exact H3.
  apply (cmd_named _ _ _ _ _ _ N Hb) in C as (o & Ro & E). rewrite (seq_ok_run _ _ _ _ _ (dump_inv_tocs _ _ HD) HT HD Ro) in E. unfold after_dump in E. rewrite H6 in E.
  injection E as -> ->. split; [reflexivity|]. exists (set_mapped r true), d. split; [exact Hr2|]. split; [exact H5|].
  intros f32 f64. exists (flatten f32 f64 out'). split; [reflexivity|]. apply H7. intros v _. unfold printed_label.
  destruct (Z.eqb_spec (vm_indom (vv_metric v)) 0) as [E|E]; [by rewrite bool_decide_true|by rewrite bool_decide_false].
Qed.

(** While Start writes the file, the command prints nothing and crashes, or prints a header announcing no
    section and nothing else, or the file is already what it is when Start returns. *)
Theorem C62_during_start w cid c r gen pid s fs args out e : reachable w -> w_dead w = false -> w_clients w !! cid = Some c -> w_regs w !! cl_reg c = Some r -> startable (w_heap w) r ->
  gen mod 2 ^ 64 <> 0 -> start_partial (w_heap w) (w_offs w) (start_cfg c r gen pid) s ->
  names_file args (cl_loc c) -> fs (cl_loc c) = Some (g_buf s) -> cmd_run fs args out e ->
  (out = [] /\ e = CCrash) \/
  (e = CReturn /\ exists h, hd_toc h = 0 /\ forall f32 f64, flatten f32 f64 out = file_line (cl_loc c) ++ header_text h) \/
  exists w1, wstep w (CStart cid gen pid true) ROk w1 /\ file_of w1 c = Some (g_buf s).
Proof.
  intros R Hd Hc Hr Hs Hg Hp N F C. apply (cmd_named _ _ _ _ _ _ N F) in C as (o & Ro & E).
  destruct (crash_run _ _ _ _ _ _ _ _ (reachable_ok _ R) Hd Hc Hr Hs Hg Hp Ro) as [->|[(d & -> & D1 & D2)|H]]; [left; by injection E as -> ->| |auto].
  right. left. unfold after_dump, Write in E. destruct D1 as [Et _]. rewrite Et in E. cbn in E. injection E as -> ->. split; [reflexivity|]. exists (du_header d). split; [exact D2|].
  intros f32 f64. unfold flatten, file_line, header_text. cbn [map concat]. by rewrite !app_nil_r.
Qed.

(** A file that is not there (before the first Start, or after a Stop that erases): nothing is printed. *)
Theorem C62_erased w cid w' c args out e : w_clients w !! cid = Some c -> wstep w (CStop cid true true) ROk w' -> names_file args (cl_loc c) ->
  cmd_run (disk w') args out e -> out = [] /\ e = CCrash.
Proof. intros Hc St N C. apply (cmd_missing _ _ _ _ _ N) in C; [exact C|]. exact (stop_file _ _ _ _ _ Hc St). Qed.
(** Stop without erasing changes nothing for the command. *)
Theorem C62_kept w cid w' c args out e : w_clients w !! cid = Some c -> wstep w (CStop cid false true) ROk w' -> names_file args (cl_loc c) ->
  (cmd_run (disk w) args out e <-> cmd_run (disk w') args out e).
Proof.
  intros Hc St N. pose proof (stop_file _ _ _ _ _ Hc St) as E. change (disk w' (cl_loc c) = disk w (cl_loc c)) in E. destruct (disk w (cl_loc c)) as [data|] eqn:F.
  - rewrite !cmd_named; eauto.
  - rewrite !cmd_missing; eauto.
Qed.

(** False: the command crashes on files that can be read; here, on an empty one. *)
Theorem C62_crash_refuted : let fs (p : gostring) := if bool_decide (p = str "empty") then Some [] else None in
  forall out e, cmd_run fs [str "empty"] out e <-> out = [] /\ e = CCrash.
Proof.
  intros fs out e. assert (names_file [str "empty"] (str "empty")) as N by (exists []; left; split; [reflexivity|left; discriminate]).
  rewrite (cmd_named fs _ _ [] _ _ N) by reflexivity. split.
  - intros (o & Ro & E). rewrite (no_header [] o) in E by (done || reflexivity). by injection E as -> ->.
  - intros [-> ->]. exists DErr. split; [by constructor|reflexivity].
Qed.
(** False: it may crash after having printed a part of the text. The file has a metric without a name. *)
Definition nameless : list byte :=
  str "MMV" ++ [x00] ++ le_enc 4 2 ++ le_enc 8 7 ++ le_enc 8 7 ++ le_enc 4 1 ++ zeros 12 ++ le_enc 4 3 ++ le_enc 4 1 ++ le_enc 8 56 ++ zeros 48.
Definition nameless_check : bool :=
  match Dump nameless with
  | DOk d => bool_decide (NoDup (map tc_type (du_tocs d))) && match after_dump (str "f") (DOk d) with
      | ([PB a; PB _; PB b], CCrash) => bool_decide (a = file_line (str "f")) && bool_decide (b = str "TOC[0], offset: 40, metric offset: 56 (1 entries)" ++ nl)
      | _ => false
      end
  | _ => false
  end.
Theorem C62_part_refuted : let fs (p : gostring) := if bool_decide (p = str "f") then Some nameless else None in
  (exists out e, cmd_run fs [str "f"] out e) /\ forall out e, cmd_run fs [str "f"] out e ->
    e = CCrash /\ exists h, out = [PB (file_line (str "f")); h; PB (str "TOC[0], offset: 40, metric offset: 56 (1 entries)" ++ nl)].
Proof.
  intros fs. split; [apply cmd_exists|]. intros out e C. assert (names_file [str "f"] (str "f")) as N by (exists []; left; split; [reflexivity|left; discriminate]).
  apply (cmd_named fs _ _ nameless _ _ N) in C as (o & Ro & E); [|reflexivity]. assert (nameless_check = true) as K by (vm_compute; reflexivity). unfold nameless_check in K.
  destruct (Dump nameless) as [d| | |] eqn:D; try discriminate K. apply andb_prop in K as [K1 K2]. apply bool_decide_eq_true in K1.
  rewrite (seq_ok_run _ _ _ _ _ (dump_inv_tocs _ _ D) K1 D Ro) in E. rewrite <- E in K2. clear D E Ro N.
  destruct out as [|[a|?|?] [|[h|?|?] [|[b|?|?] [|? ?]]]]; try discriminate K2. destruct e; try discriminate K2. apply andb_prop in K2 as [K2 K3].
  apply bool_decide_eq_true in K2, K3. subst. split; [reflexivity|]. by exists (PB h).
Qed.
(** False: a file whose name begins with a dash is not dumped, whatever it contains and whatever follows, unless two dashes precede it. *)
Theorem C62_dash_refuted fs b t rest out e : let file := dash :: b :: t in file <> [dash; dash] ->
  cmd_run fs (file :: rest) out e <-> out = [] /\ e = CUsage.
Proof.
  intros file Hf. assert (parse_flags (file :: rest) = None) as P.
  { cbn. rewrite bool_decide_true by reflexivity. rewrite bool_decide_false; [reflexivity|]. intros [-> ->]. by apply Hf. }
  split; [|intros [-> ->]; by constructor]. intros C. destruct C as [H|H|f r H H1|f r dt o H H1 H2]; try congruence. done.
Qed.
(** What does hold for all files and arguments: nothing is printed, or the usage (exactly if there is no argument), or the name of the named
    file and then its header, and only if some interleaving of Dump reads the file; on returning, the text is the one Write produces.
    Missing: that it does not crash, before or after a part of the text. *)
Theorem C62_output_partial fs args out e : cmd_run fs args out e ->
  (out = [] /\ (e = CUsage \/ e = CCrash)) \/
  (out = [PB (str "usage: mmvdump <file>" ++ nl)] /\ e = CReturn /\ (args = [] \/ args = [[dash; dash]])) \/
  exists file data d out', names_file args file /\ fs file = Some data /\ dump_run data (DOk d) /\ out = PB (file_line file) :: out' /\
    (exists rest, forall f32 f64, flatten f32 f64 out' = header_text (du_header d) ++ flatten f32 f64 rest) /\
    (e = CReturn -> Write d = WOk out') /\ (e = CReturn \/ e = CCrash).
Proof.
  intros C. destruct C as [H|H|f r H H1|f r dt o H H1 H2].
  - auto.
  - right. left. split; [reflexivity|]. split; [reflexivity|]. destruct args as [|[|a [|b t]] args]; cbn in H; try discriminate; [auto|].
    destruct (bool_decide (a = dash)) eqn:E; [|discriminate]. destruct (bool_decide (b = dash /\ t = [])) eqn:E'; [|discriminate].
    apply bool_decide_eq_true in E as ->. apply bool_decide_eq_true in E' as [-> ->]. injection H as ->. auto.
  - auto.
  - destruct o as [d| | |]; [|left; auto..]. right. right.
    assert (forall o', Write d = WOk o' \/ Write d = WErr o' \/ Write d = WPanic o' -> exists rest, forall f32 f64, flatten f32 f64 o' = header_text (du_header d) ++ flatten f32 f64 rest) as HW.
    { intros o' E. unfold Write, say in E. destruct (write_sections _ _ _ _ _) as [o1|o1|o1]; cbn in E; exists o1; intros f32 f64;
      (destruct E as [E|[E|E]]; try discriminate; injection E as <-); reflexivity. }
    unfold after_dump. destruct (Write d) as [o'|o'|o'] eqn:E; exists f, dt, d, o'; cbn [fst snd]; (split; [by eapply parse_names|]); (split; [exact H1|]); (split; [exact H2|]); (split; [reflexivity|]);
      (split; [apply HW; auto|]); (split; [done || reflexivity|]); auto.
Qed.

(** The started client of Example.v, its location as the only argument; and one in the middle of Start. *)
Example C62_ex : reachable exw /\ startable (w_heap exw) exr /\ wstep exw (CStart 0 ex_gen ex_pid true) ROk exs /\ phist (fun w cl => keeps w 0 cl) exs [] exs /\
  names_file [cl_loc exc] (cl_loc exc) /\ names_file [str "--"; str "-x"; str "y"] (str "-x") /\ ~ names_file [str "-x"] (str "-x") /\
  ex_gen mod 2 ^ 64 <> 0 /\ start_partial (w_heap exw) (w_offs exw) exk ex_half.1 /\ (exists w', wstep exs (CStop 0 true true) ROk w').
Proof.
  split; [exact exw_reachable|]. split; [exact exw_startable|]. split; [exact exs_step|]. split; [constructor|].
  split; [exists []; left; split; [reflexivity|left; vm_compute; discriminate]|]. split; [exists [str "y"]; right; reflexivity|].
  split; [intros N; apply names_parse in N as [rest N]; discriminate N|].
  destruct C03_ex as (_ & _ & G & P & _). split; [exact G|]. split; [exact P|]. destruct (stop_possible _ 0 ex_gen ex_pid true exs_synced eq_refl) as (w' & H & _). by exists w'.
Qed.

Print Assumptions C62_client.
Print Assumptions C62_during_start.
Print Assumptions C62_erased.
Print Assumptions C62_kept.
Print Assumptions C62_crash_refuted.
Print Assumptions C62_part_refuted.
Print Assumptions C62_dash_refuted.
Print Assumptions C62_output_partial.
