(** C28, C40, C41: metric names given as strings, the location of the MMV file and
    pcp.conf. *)
From Verif Require Import Base BaseFacts Utf8 Utf8Facts Regexp RegexpFacts Parse ParseFacts Hash Indom Metrics Registry World RegInv WorldInv
  Path PathFacts PathWalk Config ConfigFacts ConfigWitness RegString.

(** ** C28 *)
(** The Unicode tables are a parameter; all that is used of them is that the
    delimiters are neither letters nor digits. *)
Theorem C28_grammar isLN s m d i : delims_ok isLN -> parse_string isLN s = Some (m, d, i) <-> parses isLN s m d i.
Proof. intros D. by apply parse_iff. Qed.
Theorem C28_rejects isLN s : delims_ok isLN -> parse_string isLN s = None <-> forall m d i, ~ parses isLN s m d i.
Proof.
  intros D. split.
  - intros E m d i P. apply (C28_grammar isLN s m d i D) in P. congruence.
  - intros H. destruct (parse_string isLN s) as [[[m d] i]|] eqn:E; [|reflexivity]. apply (C28_grammar isLN s m d i D) in E. by apply H in E.
Qed.
(** A call that succeeds has registered the metric the string names: in the named
    domain, with the listed instances, or without a domain. *)
Theorem C28_registers isLN w rid r mp ip s val t sem u ord hp' r' : delims_ok isLN -> reachable w -> w_regs w !! rid = Some r ->
  AddMetricByString isLN (w_heap w) r mp ip s val t sem u ord = (ROk, hp', r') ->
  exists name d i m, parses isLN s name d i /\ r_metrics r' !! name = Some mp /\ h_metrics hp' !! mp = Some m /\ md_name (m_desc m) = name /\
  match i with
  | None => m_indom m = None
  | Some l => exists ip' dom, m_indom m = Some ip' /\ r_indoms r' !! d = Some ip' /\ h_indoms hp' !! ip' = Some dom /\ id_name dom = d /\
      (NoDup l -> forall n, n ∈ l <-> is_Some (id_insts dom !! n))
  end.
Proof.
  intros D R Hr. unfold AddMetricByString. destruct (parse_string isLN s) as [[[name d] i]|] eqn:E; [|done].
  apply (C28_grammar isLN s name d i D) in E. intros H. unfold add_by_string in H. destruct i as [l|].
  - destruct (add_instance_puts _ _ _ _ _ _ _ _ _ _ _ _ _ _ (wo_regs _ (reachable_ok _ R) _ _ Hr) H) as (H1 & m & ip' & dom & H2 & H3 & H4 & H5 & H6 & H7 & H8).
    exists name, d, (Some l), m. split_and!; auto. exists ip', dom. auto.
  - apply add_singleton_puts in H as (H1 & m & H2 & H3 & H4). exists name, d, None, m. auto.
Qed.
Theorem C28_rejected_no_effect isLN w rid r mp ip s val t sem u ord : delims_ok isLN -> reachable w -> w_regs w !! rid = Some r ->
  (forall m d i, ~ parses isLN s m d i) -> AddMetricByString isLN (w_heap w) r mp ip s val t sem u ord = (RErr, w_heap w, r).
Proof. intros D _ _ H. unfold AddMetricByString. by rewrite (proj2 (C28_rejects isLN s D) H). Qed.
(** The strings of the repository's own tests, and some that are rejected. *)
Example C28_ex : delims_ok asciiLN /\
  parse_string asciiLN (str "sheep[limpy,grumpy,chumpy].legs.available") =
    Some (str "sheep.legs.available", str "sheep", Some [str "limpy"; str "grumpy"; str "chumpy"]) /\
  parse_string asciiLN (str "a_b[c_d, e_f, g_h]._i") = Some (str "a_b._i", str "a_b", Some [str "c_d"; str "e_f"; str "g_h"]) /\
  parse_string asciiLN (str "cow.how.now") = Some (str "cow.how.now", [], None) /\
  parse_string asciiLN (str "a[b]") = Some (str "a", str "a", Some [str "b"]) /\
  parse_string asciiLN (str "a..b") = None /\ parse_string asciiLN (str "a[]") = None /\ parse_string asciiLN (str "a[b,  c]") = None /\
  parse_string asciiLN (str "a[b].") = None /\ parse_string asciiLN [] = None.
Proof.
  split; [|vm_compute; auto 20]. intros c H. repeat (apply elem_of_cons in H as [->|H]; [reflexivity|]). by apply elem_of_nil in H.
Qed.
(** A letter outside ASCII (é), in the tables; an invalid byte is never part of a name. *)
Example C28_ex_unicode : let t := fun c => asciiLN c || (c =? 233) in
  parse_string t [x63; xc3; xa9; x2e; x61] = Some ([x63; xc3; xa9; x2e; x61], [], None) /\ parse_string t [x63; xc3; x2e; x61] = None.
Proof. vm_compute. auto. Qed.

(** ** C40 *)
(** The names "", "." and ".." are accepted, and the location is the directory itself
    or its parent. *)
Theorem C40_location_refuted : exists root config tmp n loc, mmvFileLocation root config tmp n = Some loc /\
  ~ directly_in (join [mmv_dir root config tmp; str "mmv"]) loc.
Proof.
  exists (str "/"), {[str "PCP_TMP_DIR" := str "/var/tmp"]}, None, (str ".."), (str "/var/tmp"). split; [vm_compute; reflexivity|].
  apply not_in_short. vm_compute. lia.
Qed.
Theorem C40_location_partial root config tmp n loc : mmvFileLocation root config tmp n = Some loc ->
  directly_in (join [mmv_dir root config tmp; str "mmv"]) loc <-> n <> [] /\ n <> str "." /\ n <> str "..".
Proof. intros H. apply (location_entry _ _ _ _ _ H). Qed.
Theorem C40_name_partial root config tmp n loc : mmvFileLocation root config tmp n = Some loc -> n <> [] -> n <> str "." -> n <> str ".." ->
  loc = join [mmv_dir root config tmp; str "mmv"] ++ str "/" ++ n.
Proof.
  intros H N1 N2 N3. unfold mmvFileLocation in H. destruct (decide (slash ∈ n)) as [|Hs]; [done|]. injection H as <-. by apply join_entry.
Qed.
(** Which directory this is, for paths without ".", ".." and doubled slashes ([abs_path], PathFacts.v, is "/a/b" for the names a, b):
    the configured PCP_TMP_DIR below the root; without it TMPDIR, without both /tmp. *)
Theorem C40_configured rs ts config tmp n : Forall entry_name rs -> Forall entry_name ts -> entry_name n -> config !! str "PCP_TMP_DIR" = Some (abs_path ts) ->
  mmvFileLocation (abs_path rs) config tmp n = Some (abs_path (rs ++ ts ++ [str "mmv"; n])).
Proof.
  intros F1 F2 Hn Hc. unfold mmvFileLocation, mmv_dir. rewrite decide_False by apply Hn. rewrite Hc, join_abs2, join_abs3, <- app_assoc by (try apply Forall_app; auto). done.
Qed.
Theorem C40_temporary root config ts n : Forall entry_name ts -> entry_name n -> config !! str "PCP_TMP_DIR" = None ->
  mmvFileLocation root config (Some (abs_path ts)) n = Some (abs_path (ts ++ [str "mmv"; n])).
Proof.
  intros F Hn Hc. unfold mmvFileLocation, mmv_dir. rewrite decide_False by apply Hn. rewrite Hc. assert (temp_dir (Some (abs_path ts)) = abs_path ts) as -> by (by destruct ts).
  by rewrite join_abs3.
Qed.
Theorem C40_default root config tmp n : entry_name n -> config !! str "PCP_TMP_DIR" = None -> tmp = None \/ tmp = Some [] ->
  mmvFileLocation root config tmp n = Some (str "/tmp/mmv/" ++ n).
Proof.
  intros Hn Hc Ht. unfold mmvFileLocation, mmv_dir. rewrite decide_False by apply Hn. rewrite Hc. assert (temp_dir tmp = abs_path [str "tmp"]) as -> by (destruct Ht as [-> | ->]; reflexivity).
  rewrite join_abs3; [|apply Forall_singleton; exact entry_tmp|done]. unfold abs_path. cbn [map concat app]. by rewrite app_nil_r.
Qed.
Example C40_configured_ex : Forall entry_name [str "opt"; str "pcp"] /\ Forall entry_name [str "var"; str "tmp"] /\ entry_name (str "app") /\
  abs_path [str "opt"; str "pcp"] = str "/opt/pcp" /\ abs_path [] = str "/" /\
  mmvFileLocation (str "/opt/pcp") {[str "PCP_TMP_DIR" := str "/var/tmp"]} None (str "app") = Some (str "/opt/pcp/var/tmp/mmv/app").
Proof.
  assert (forall n, bool_decide (n <> [] /\ n <> str "." /\ n <> str ".." /\ slash ∉ n) = true -> entry_name n) as D by (intros n H; by apply bool_decide_eq_true in H).
  split_and!; repeat (constructor || apply D); vm_compute; reflexivity.
Qed.
(** Where the location leads for any directories, with ".", ".." and doubled slashes:
    below the configured or temporary directory, in mmv. [place cwd p] follows the path [p]
    name by name from the root or from [cwd], [walk] from the given directory, [go] is one
    name (PathWalk.v). *)
Theorem C40_place root config tmp n loc cwd : mmvFileLocation root config tmp n = Some loc ->
  place cwd loc = go ((match config !! str "PCP_TMP_DIR" with
    | Some t => if bool_decide (root = []) then place cwd t else walk (place cwd root) [] t
    | None => place cwd (match tmp with Some (c :: d) => c :: d | _ => str "/tmp" end)
    end) ++ [str "mmv"]) n.
Proof.
  unfold mmvFileLocation. destruct (decide (slash ∈ n)) as [|Hs]; [done|]. intros H. apply (inj Some) in H as <-. rewrite place_location by done. unfold mmv_dir. destruct (config !! str "PCP_TMP_DIR") as [t|]; [by rewrite place_join2|done].
Qed.
Example C40_place_ex : mmvFileLocation (str "/") ∅ (Some (str "../../t/./x//..")) (str "a") = Some (str "../../t/mmv/a") /\
  place [str "h"; str "u"; str "w"] (str "../../t/./x//..") = [str "h"; str "t"] /\ place [str "h"; str "u"; str "w"] (str "../../t/mmv/a") = [str "h"; str "t"; str "mmv"; str "a"] /\
  place [str "h"] (str "/../v/..") = [].
Proof. vm_compute. auto. Qed.
Theorem C40_rejected root config tmp n rid : NewPCPClientWithRegistry root config tmp n rid = None <-> slash ∈ n.
Proof.
  unfold NewPCPClientWithRegistry, mmvFileLocation. destruct (decide (slash ∈ n)); split; intros; done || congruence.
Qed.
Theorem C40_client root config tmp n rid c : NewPCPClientWithRegistry root config tmp n rid = Some c ->
  mmvFileLocation root config tmp n = Some (cl_loc c) /\ cl_reg c = rid /\ cl_wr c = None /\ cl_cluster c = hash n 12 /\ cl_flag c = 2.
Proof. unfold NewPCPClientWithRegistry. destruct (mmvFileLocation _ _ _ _); [|done]. intros [= <-]. auto. Qed.
(** Two clients with different names do not share a file. *)
Theorem C40_distinct root config tmp n1 n2 loc : mmvFileLocation root config tmp n1 = Some loc -> mmvFileLocation root config tmp n2 = Some loc ->
  (forall n, n = n1 \/ n = n2 -> n <> [] /\ n <> str "." /\ n <> str "..") -> n1 = n2.
Proof.
  intros H1 H2 N. destruct (N n1) as (A1 & A2 & A3); [auto|]. destruct (N n2) as (B1 & B2 & B3); [auto|].
  apply C40_name_partial in H1; [|done..]. apply C40_name_partial in H2; [|done..]. rewrite H1 in H2. apply app_inv_head in H2. cbn in H2. by simplify_eq.
Qed.
Example C40_ex : mmvFileLocation (str "/") {[str "PCP_TMP_DIR" := str "/var/lib/pcp/tmp"]} None (str "myclient") = Some (str "/var/lib/pcp/tmp/mmv/myclient") /\
  mmvFileLocation (str "/opt/pcp/../x") {[str "PCP_TMP_DIR" := str "tmp//"]} None (str "a") = Some (str "/opt/x/tmp/mmv/a") /\
  mmvFileLocation (str "/") ∅ None (str "a") = Some (str "/tmp/mmv/a") /\ mmvFileLocation (str "/") ∅ (Some (str "../t")) (str "a") = Some (str "../t/mmv/a") /\
  mmvFileLocation (str "/") ∅ None (str "a/b") = None /\ mmvFileLocation (str "/") ∅ None (str "..") = Some (str "/tmp").
Proof. vm_compute. auto 10. Qed.

(** ** C41 *)
(** One line. *)
Theorem C41_line ln k v : x0a ∉ ln -> conf_line ln = Some (k, v) <-> defines ln k v.
Proof. apply conf_line_spec. Qed.
(** A line of 64 KiB hides the lines after it. *)
Theorem C41_file_refuted : exists f k v, conf_value f k v /\ conf_map f !! k = None.
Proof. exists long_conf, (str "A"), (str "b"). split; [exact long_value|]. rewrite long_map. reflexivity. Qed.
Theorem C41_file_partial f k v : lines_short f -> conf_map f !! k = Some v <-> conf_value f k v.
Proof. apply conf_map_spec. Qed.
(** With a line that is too long, what counts is the text before it. *)
Theorem C41_long_line f a ln k v : line_of f a ln -> 65536 <= zlen ln -> lines_short a -> conf_map f !! k = Some v <-> conf_value a k v.
Proof. intros L G S. rewrite (conf_map_long f a ln L G S). by apply conf_map_spec. Qed.
Theorem C41_init_partial dir conf fs root path config : initConfig dir conf fs = (root, path, config) ->
  root = default (str "/") dir /\ (forall c, conf = Some c -> path = c) /\ (conf = None -> dir = None -> path = str "/etc/pcp.conf") /\
  match fs path with
  | None => config = None
  | Some f => exists m, config = Some m /\ (lines_short f -> forall k v, m !! k = Some v <-> conf_value f k v)
  end.
Proof.
  unfold initConfig. intros H. injection H as <- <- <-. split_and!; [by destruct dir|by intros c ->|intros -> ->; vm_compute; reflexivity|].
  set (path := match conf with Some c => c | None => _ end). destruct (fs path) as [f|]; [|done]. cbn. eexists. split; [done|]. intros S k v. by apply conf_map_spec.
Qed.
Example C41_ex : let f := str "# PCP_OLD=1" ++ [x0a] ++ str "PCP_TMP_DIR=/tmp" ++ [x0d; x0a; x0a] ++ str "export lowerA_1=x=y z" ++ [x0a] ++ str "nothing" ++ [x0a] ++ str "PCP_TMP_DIR=/var/tmp" in
  scan_lines f = [str "# PCP_OLD=1"; str "PCP_TMP_DIR=/tmp"; []; str "export lowerA_1=x=y z"; str "nothing"; str "PCP_TMP_DIR=/var/tmp"] /\
  conf_map f !! str "PCP_OLD" = Some (str "1") /\ conf_map f !! str "PCP_TMP_DIR" = Some (str "/var/tmp") /\
  conf_map f !! str "A_1" = Some (str "x=y z") /\ conf_map f !! str "nothing" = None.
Proof. vm_compute. auto 10. Qed.
Example C41_ex_short : lines_short (str "A=1" ++ [x0a] ++ str "B=2") /\ conf_value (str "A=1" ++ [x0a] ++ str "B=2") (str "B") (str "2").
Proof.
  assert (lines_short (str "A=1" ++ [x0a] ++ str "B=2")) as S.
  { apply lines_short_forall. apply (bool_decide_eq_true_1 _). vm_compute. reflexivity. }
  split; [exact S|]. apply (conf_map_spec _ _ _ S). vm_compute. reflexivity.
Qed.

Print Assumptions C28_grammar.
Print Assumptions C28_rejects.
Print Assumptions C28_registers.
Print Assumptions C28_rejected_no_effect.
Print Assumptions C40_location_refuted.
Print Assumptions C40_location_partial.
Print Assumptions C40_name_partial.
Print Assumptions C40_configured.
Print Assumptions C40_temporary.
Print Assumptions C40_default.
Print Assumptions C40_place.
Print Assumptions C40_rejected.
Print Assumptions C40_client.
Print Assumptions C40_distinct.
Print Assumptions C41_line.
Print Assumptions C41_file_refuted.
Print Assumptions C41_file_partial.
Print Assumptions C41_long_line.
Print Assumptions C41_init_partial.
