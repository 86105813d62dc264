(** Which files the process can still change, and the creation of the file call by call. *)
From Verif Require Import Base BaseFacts Floats GoVal MetricType ByteWriter Hash Units Indom Metrics Registry Prog
  Client Mmvdump ProgProofs BufFacts View RegInv World OpRuns RegFacts WorldInv Sync SyncView Life Files.

(** ** One system call at a time *)
(** What others can find after the process died, or the call failed, anywhere inside NewMemoryMappedWriter. *)
Record creating (loc : gostring) (size : Z) (o : os) (pc : fpc) (o' : os) : Prop := {
  fc_inodes : forall ino b, os_inodes o !! ino = Some b -> os_inodes o' !! ino = Some b;
  fc_paths : forall p, p <> loc -> os_paths o' !! p = os_paths o !! p;
  fc_loc : o' = o \/ o' = mkOs (delete loc (os_paths o)) (os_inodes o) \/
    exists ino n, os_inodes o !! ino = None /\ 0 <= n <= size /\
      o' = mkOs (<[loc := ino]> (os_paths o)) (<[ino := zeros n]> (os_inodes o));
  fc_pc : match pc with
    | FStat | FRemove => o' = o
    | FMkdir | FOpen => o' = o \/ o' = mkOs (delete loc (os_paths o)) (os_inodes o)
    | FWrite ino => os_inodes o !! ino = None /\ exists n, 0 <= n <= size /\
        o' = mkOs (<[loc := ino]> (os_paths o)) (<[ino := zeros n]> (os_inodes o))
    | FMap ino | FDone ino => os_inodes o !! ino = None /\
        o' = mkOs (<[loc := ino]> (os_paths o)) (<[ino := zeros size]> (os_inodes o))
    | FErr => True
    end }.

Lemma creating_of loc size o pc o' :
  o' = o \/ o' = mkOs (delete loc (os_paths o)) (os_inodes o) \/
    (exists ino n, os_inodes o !! ino = None /\ 0 <= n <= size /\ o' = mkOs (<[loc := ino]> (os_paths o)) (<[ino := zeros n]> (os_inodes o))) ->
  match pc with
    | FStat | FRemove => o' = o
    | FMkdir | FOpen => o' = o \/ o' = mkOs (delete loc (os_paths o)) (os_inodes o)
    | FWrite ino => os_inodes o !! ino = None /\ exists n, 0 <= n <= size /\
        o' = mkOs (<[loc := ino]> (os_paths o)) (<[ino := zeros n]> (os_inodes o))
    | FMap ino | FDone ino => os_inodes o !! ino = None /\
        o' = mkOs (<[loc := ino]> (os_paths o)) (<[ino := zeros size]> (os_inodes o))
    | FErr => True
    end -> creating loc size o pc o'.
Proof.
  intros A B. split; auto.
  - intros ino b H. destruct A as [->|[->|(i & n & Hi & _ & ->)]]; cbn; auto. rewrite lookup_insert_ne by congruence. exact H.
  - intros p N. destruct A as [->|[->|(i & n & Hi & _ & ->)]]; cbn; auto; [by rewrite lookup_delete_ne by congruence|by rewrite lookup_insert_ne by congruence].
Qed.

Lemma zeros_app a b : 0 <= a -> 0 <= b -> zeros a ++ zeros b = zeros (a + b).
Proof. intros. unfold zeros. rewrite <- replicate_add. f_equal. lia. Qed.

Lemma fstep_creating loc size o x y : 0 <= size -> fstep loc size x y -> creating loc size o x.1 x.2 -> creating loc size o y.1 y.2.
Proof.
  intros Hs St [C1 C2 C3 C4].
  destruct St as [o1 H|o1|o1|o1|o1|o1|o1 ino Hl Hi|o1|o1 ino b n Hb Hn Hl|o1 ino b Hb Hl|o1 ino|o1 ino|o1 ino]; cbn [fst snd] in *; apply creating_of; auto.
  - subst. right. left. reflexivity.
  - subst. right. reflexivity.
  - right. right. destruct C4 as [->| ->]; cbn [os_paths os_inodes] in *.
    + exists ino, 0. split_and!; auto; lia.
    + exists ino, 0. rewrite insert_delete_insert. split_and!; auto; lia.
  - destruct C4 as [->| ->]; cbn [os_paths os_inodes] in *; (split; [exact Hi|]); exists 0; (split; [lia|]); rewrite ?insert_delete_insert; reflexivity.
  - destruct C4 as [Hi (n0 & Hn0 & ->)]. cbn [os_inodes os_paths grow] in *. rewrite lookup_insert in Hb. injection Hb as <-.
    rewrite zlen_zeros in Hl by lia. right. right. exists ino, (n0 + n). split_and!; [exact Hi|lia|lia|]. unfold grow. cbn. rewrite insert_insert, zeros_app by lia. reflexivity.
  - destruct C4 as [Hi (n0 & Hn0 & ->)]. cbn [os_inodes os_paths grow] in *. rewrite lookup_insert in Hb. injection Hb as <-.
    rewrite zlen_zeros in Hl by lia. split; [exact Hi|]. exists (n0 + n). split_and!; [lia|lia|]. unfold grow. cbn. rewrite insert_insert, zeros_app by lia. reflexivity.
  - destruct C4 as [Hi (n0 & Hn0 & ->)]. cbn [os_inodes os_paths grow] in *. rewrite lookup_insert in Hb. injection Hb as <-.
    rewrite zlen_zeros in Hl by lia. subst. auto.
Qed.
Lemma creating_run loc size o pc o' : 0 <= size -> rtc (fstep loc size) (FStat, o) (pc, o') -> creating loc size o pc o'.
Proof.
  intros Hs R. assert (forall x y, rtc (fstep loc size) x y -> creating loc size o x.1 x.2 -> creating loc size o y.1 y.2) as G.
  { induction 1 as [|x y z St _ IH]; [auto|]. intros C. apply IH. eapply fstep_creating; eauto. }
  apply (G _ _ R). cbn. apply creating_of; auto.
Qed.
(** Without a refused call the function succeeds. *)
Lemma create_possible loc size o ino : 0 <= size -> os_inodes o !! ino = None ->
  rtc (fstep loc size) (FStat, o) (FDone ino, mkOs (<[loc := ino]> (os_paths o)) (<[ino := zeros size]> (os_inodes o))).
Proof.
  intros Hs Hi.
  assert (forall o1, os_paths o1 !! loc = None -> os_inodes o1 = os_inodes o -> rtc (fstep loc size) (FMkdir, o1)
    (FDone ino, mkOs (<[loc := ino]> (os_paths o1)) (<[ino := zeros size]> (os_inodes o1)))) as G.
  { intros o1 Hp E. eapply rtc_l; [apply fs_mkdir_ok|]. eapply rtc_l; [apply fs_open_ok; [exact Hp|rewrite E; exact Hi]|].
    eapply rtc_l; [apply (fs_write_part _ _ _ _ [] size); [apply lookup_insert|lia|change (zlen []) with 0; lia]|].
    unfold grow. cbn [os_paths os_inodes]. rewrite insert_insert. cbn [app].
    eapply rtc_l; [eapply fs_write_ok; [apply lookup_insert|apply zlen_zeros; lia]|]. apply rtc_once, fs_map_ok. }
  destruct (os_paths o !! loc) as [i|] eqn:E.
  - eapply rtc_l; [apply fs_stat_ok; rewrite E; eauto|]. eapply rtc_l; [apply fs_remove_ok|].
    specialize (G (mkOs (delete loc (os_paths o)) (os_inodes o))). cbn [os_paths os_inodes] in G. rewrite insert_delete_insert in G. apply G; [apply lookup_delete|reflexivity].
  - eapply rtc_l; [apply fs_stat_err|]. apply G; auto.
Qed.

(** ** Closures, writers and contents over one call *)
Definition closure_at (hp : heap) (mp : nat) (n : option gostring) (cl : closure) : Prop :=
  exists m c, h_metrics hp !! mp = Some m /\ cell_at m n = Some c /\ c_upd c = Some cl.

Record step_files (w w' : world) : Prop := {
  sf_clos : forall mp n cl, closure_at (w_heap w') mp n cl -> closure_at (w_heap w) mp n cl \/ f_writers (w_files w) !! cl_writer cl = None;
  sf_wr : forall wr x', f_writers (w_files w') !! wr = Some x' ->
    (exists x, f_writers (w_files w) !! wr = Some x /\ wr_inode x = wr_inode x' /\ (wr_live x' = true -> wr_live x = true)) \/
    (f_writers (w_files w) !! wr = None /\ f_inodes (w_files w) !! wr_inode x' = None);
  sf_wr_keep : forall wr, is_Some (f_writers (w_files w) !! wr) -> is_Some (f_writers (w_files w') !! wr);
  sf_ino : forall ino b, f_inodes (w_files w) !! ino = Some b ->
    (forall mp n cl x, closure_at (w_heap w) mp n cl -> f_writers (w_files w) !! cl_writer cl = Some x -> wr_live x = true -> wr_inode x <> ino) ->
    f_inodes (w_files w') !! ino = Some b;
  sf_regs : forall rid r, w_regs w !! rid = Some r -> exists r', w_regs w' !! rid = Some r' /\ r_metrics r ⊆ r_metrics r' }.

Lemma same_regs (R : gmap nat registry) (rid : nat) (r : registry) : R !! rid = Some r -> exists r', R !! rid = Some r' /\ r_metrics r ⊆ r_metrics r'.
Proof. eauto. Qed.
Lemma ins_regs (R : gmap nat registry) rid0 r0 r0' rid r : R !! rid0 = Some r0 -> r_metrics r0 ⊆ r_metrics r0' -> R !! rid = Some r ->
  exists r', <[rid0 := r0']> R !! rid = Some r' /\ r_metrics r ⊆ r_metrics r'.
Proof.
  intros H0 Hs H. destruct (decide (rid0 = rid)) as [->|N]; [rewrite lookup_insert; assert (r = r0) as -> by congruence; eauto|rewrite lookup_insert_ne by exact N; eauto].
Qed.
Lemma next_clos hp r o hp' r' mp n cl : reg_next hp r o hp' r' -> closure_at hp' mp n cl -> closure_at hp mp n cl.
Proof.
  intros N (m & c & Hm & Hc & Hu). destruct (rn_new _ _ _ _ _ N _ _ Hm) as [Hm'|Hno]; [exists m, c; auto|]. rewrite (Hno _ _ Hc) in Hu. discriminate.
Qed.

(** A store only reaches the inode of a live writer. *)
Lemma with_writer_live fs w f o fs' ino : with_writer fs w f = (o, fs') -> f_writers fs' = f_writers fs /\
  ((forall x, f_writers fs !! w = Some x -> wr_live x = true -> wr_inode x <> ino) -> f_inodes fs' !! ino = f_inodes fs !! ino).
Proof.
  intros H. destruct (with_writer_frame _ _ _ _ _ H) as (F1 & _ & F3). split; [exact F1|]. intros Hx.
  destruct (f_writers fs !! w) as [x|] eqn:Ex; [destruct (wr_live x) eqn:El|].
  - apply F3. intros x' E. assert (x' = x) as -> by congruence. by apply Hx.
  - unfold with_writer in H. rewrite Ex, El in H. by injection H as _ <-.
  - apply F3. congruence.
Qed.
Lemma run_update_live fs cl v o fs' ino : run_update fs cl v = (o, fs') -> f_writers fs' = f_writers fs /\
  ((forall x, f_writers fs !! cl_writer cl = Some x -> wr_live x = true -> wr_inode x <> ino) -> f_inodes fs' !! ino = f_inodes fs !! ino).
Proof.
  unfold run_update. destruct v; try apply with_writer_live.
  destruct (with_writer fs (cl_writer cl) (fun b => bw_must_write b (zeros StringLength) (cl_off cl))) as [o1 fs1] eqn:E1.
  destruct (with_writer_live _ _ _ _ _ ino E1) as (A1 & A2). destruct o1; intros H; simplify_eq; auto.
  destruct (with_writer_live _ _ _ _ _ ino H) as (B1 & B2). split; [congruence|]. intros K. rewrite B2, A2; auto. intros x Hx. apply K. congruence.
Qed.
Lemma store_cell_live fs c v o fs' c' ino : store_cell fs c v = (o, fs', c') -> 
  (forall cl x, c_upd c = Some cl -> f_writers fs !! cl_writer cl = Some x -> wr_live x = true -> wr_inode x <> ino) -> f_inodes fs' !! ino = f_inodes fs !! ino.
Proof.
  unfold store_cell. destruct (go_eqb v (c_val c)); [intros; simplify_eq; auto|].
  destruct (c_upd c) as [cl|] eqn:E; [|intros; by simplify_eq].
  destruct (run_update fs cl v) as [o1 fs1] eqn:E1. destruct (run_update_live _ _ _ _ _ ino E1) as (_ & A2).
  destruct o1; intros; simplify_eq; apply A2; intros x Hx Hl; eauto.
Qed.
Lemma mrun_live P fs m o fs' m' ino : mrun P fs m o fs' m' ->
  (forall n c cl x, cell_at m n = Some c -> c_upd c = Some cl -> f_writers fs !! cl_writer cl = Some x -> wr_live x = true -> wr_inode x <> ino) ->
  f_inodes fs' !! ino = f_inodes fs !! ino.
Proof.
  induction 1 as [fs m o Ho|fs m k o fs' m' H1 H2 H IH|fs m n c v fs1 c1 o fs' m' Hc Ht HP Hs H IH|fs m n c v o o' fs1 c1 Hc Ht HP Hs H1 H2 H3]; intros Hm; auto.
  - destruct (store_cell_spec _ _ _ _ _ _ Hs) as (S1 & _ & S3 & _). rewrite IH.
    + eapply store_cell_live; [exact Hs|]. intros cl x Hcl. eapply Hm; eauto.
    + intros n' c' cl x Hc' Hcl. rewrite S3. rewrite (cell_at_put _ _ _ _ _ Hc) in Hc'. case_decide; [|eapply Hm; eauto]. injection Hc' as <-. eapply Hm; [exact Hc|congruence].
  - eapply store_cell_live; [exact Hs|]. intros cl x Hcl. eapply Hm; eauto.
Qed.

Lemma wstep_files w c o w' : w_ok w -> wstep w c o w' -> step_files w w'.
Proof.
  intros W H. 
  assert (forall hp' regs clients paths offs dead, (forall mp n cl, closure_at hp' mp n cl -> closure_at (w_heap w) mp n cl \/ f_writers (w_files w) !! cl_writer cl = None) ->
    (forall rid r, w_regs w !! rid = Some r -> exists r', regs !! rid = Some r' /\ r_metrics r ⊆ r_metrics r') ->
    step_files w (mkWorld hp' regs clients (w_files w) paths offs dead)) as SAME.
  { intros hp' regs clients paths offs dead Hc Hrg. split; cbn [w_heap w_regs w_files]; auto. intros wr x' Hx. left. exists x'. auto. }
  assert (forall rid r o' hp' r' clients paths offs dead, w_regs w !! rid = Some r -> reg_next (w_heap w) r o' hp' r' ->
    step_files w (mkWorld hp' (<[rid := r']> (w_regs w)) clients (w_files w) paths offs dead)) as REG.
  { intros rid r o' hp' r' clients paths offs dead Hr N. apply SAME.
    - intros mp n cl K. left. eapply next_clos; eauto.
    - intros rid0 r0 H0. eapply ins_regs; eauto. apply (rn_keep _ _ _ _ _ N). }
  destruct H as [w rid Hd Hr|w cid name loc rid Hd Hc Hr|w ip name insts desc d Hd Hip Hn|w mp ip m new Hd Hmp Hip Hcr|w rid mp r m o r' Hd Hr Hm Ha
    |w rid ip r d Hd Hr Hip|w rid ip name insts r o hp' r' Hd Hr Hip Ha|w rid mp ip name indom insts val t s u ord r o hp' r' Hd Hr Hmp Hip Hv Hda Hord Ha
    |w cid flag c r Hd Hc Hr|w cid gen pid c r wr ino s Hd Hc Hr Hwr Hino Hs|w cid gen pid c r ino s Hd Hc Hr Hino Hs|w cid gen pid c r paths inodes Hd Hc Hr Hs
    |w cid erase os c r Hd Hc Hr Hm|w cid erase c r o w' Hd Hc Hr Hm Hs|w cid erase c r wr fs' Hd Hc Hr Hm Hwr Hfs|w mp op mst m o fs' m' Hd Hm Ha Hu].
  - apply SAME; auto. intros rid0 r0 H0. rewrite lookup_insert_ne by congruence. eauto.
  - apply SAME; eauto.
  - apply SAME; eauto.
  - destruct (created_ok _ _ _ _ (wo_heap _ W) Hip Hcr) as (_ & _ & C3 & _). apply SAME; eauto.
    intros mp0 n cl (m0 & c0 & Hm0 & Hc0 & Hu0). cbn in Hm0. apply lookup_insert_Some in Hm0 as [[<- <-]|[_ Hm0]]; [rewrite (C3 _ _ Hc0) in Hu0; discriminate|].
    left. exists m0, c0. auto.
  - eapply (REG rid r o (w_heap w) r'); [exact Hr|]. eapply add_metric_next; [apply W|eapply wo_regs; eauto|exact Hm|exact Ha].
  - destruct (add_indom r ip d) as [r'|] eqn:E; [|apply SAME; eauto].
    eapply (REG rid r ROk (w_heap w) r'); [exact Hr|]. eapply add_indom_next; [apply W|eapply wo_regs; eauto|exact Hip|exact E].
  - eapply REG; [exact Hr|]. eapply add_indom_by_name_next; [apply W|eapply wo_regs; eauto|exact Hip|exact Ha].
  - eapply REG; [exact Hr|]. eapply add_by_string_next; [apply W|eapply wo_regs; eauto|exact Hmp|exact Hip|exact Hv|exact Hda|exact Hord|exact Ha].
  - apply SAME; eauto.
  - unfold started. split; cbn [w_heap w_regs w_files f_writers f_inodes].
    + intros mp n cl (m0 & c0 & Hm0 & Hc0 & Hu0). rewrite set_upds_lookup in Hm0. destruct (h_metrics (w_heap w) !! mp) as [m1|] eqn:E0; [|discriminate]. cbn in Hm0. injection Hm0 as <-.
      rewrite cell_at_upds in Hc0. destruct (cell_at m1 n) as [c1|] eqn:E1; [|discriminate]. cbn in Hc0. injection Hc0 as <-.
      unfold set_cell_upd in Hu0. destruct (g_upd s !! (mp, n)); cbn in Hu0; [injection Hu0 as <-; right; exact Hwr|]. left. exists m1, c1. auto.
    + intros wr' x' Hx. apply lookup_insert_Some in Hx as [[<- <-]|[_ Hx]]; [right; cbn; auto|left; exists x'; auto].
    + intros wr' [x Hx]. rewrite lookup_insert_ne by congruence. eauto.
    + intros i b Hb _. rewrite lookup_insert_ne by congruence. exact Hb.
    + intros rid0 r0 H0. eapply ins_regs; eauto.
  - split; cbn [w_heap w_regs w_files f_writers f_inodes]; auto.
    + intros wr x' Hx. left. exists x'. auto.
    + intros i b Hb _. rewrite lookup_insert_ne by congruence. exact Hb.
    + eauto.
  - split; cbn [w_heap w_regs w_files f_writers f_inodes]; auto.
    + intros wr x' Hx. left. exists x'. auto.
    + intros i b Hb _. destruct Hs as [E|[E|(i0 & n0 & Hi & _ & -> & ->)]]; simplify_eq; auto. rewrite lookup_insert_ne by congruence. exact Hb.
    + eauto.
  - destruct w. apply SAME; eauto.
  - assert (forall wr clients paths dead, step_files w (mkWorld (w_heap w) (<[cl_reg c := set_mapped r false]> (w_regs w)) clients (unmap_writer (w_files w) wr) paths (w_offs w) dead)) as U.
    { intros wr clients paths dead. split; cbn [w_heap w_regs w_files]; auto.
      - intros wr' x' Hx. left. destruct (unmap_lookup _ _ _ _ Hx) as (y & K1 & K2 & K3). exists y. split_and!; auto. intros L. destruct (decide (wr' = wr)) as [->|N]; [|rewrite (K3 N); exact L].
        unfold unmap_writer in Hx. rewrite K1 in Hx. cbn in Hx. rewrite lookup_insert in Hx. injection Hx as <-. discriminate L.
      - intros wr'. apply unmap_is.
      - intros i b Hb _. rewrite unmap_inodes. exact Hb.
      - intros rid0 r0 H0. eapply ins_regs; eauto. }
    unfold stopped in Hs. destruct (cl_wr c) as [wr|] eqn:Ewr.
    + destruct erase; injection Hs as <- <-; apply U.
    + injection Hs as <- <-. unfold set_regs. apply SAME; auto. intros rid0 r0 H0. eapply ins_regs; eauto.
  - destruct Hfs as [->| ->].
    + apply SAME; auto. intros rid0 r0 H0. eapply ins_regs; eauto.
    + split; cbn [w_heap w_regs w_files]; auto.
      * intros wr' x' Hx. left. destruct (unmap_lookup _ _ _ _ Hx) as (y & K1 & K2 & K3). exists y. split_and!; auto. intros L. destruct (decide (wr' = wr)) as [->|N]; [|rewrite (K3 N); exact L].
        unfold unmap_writer in Hx. rewrite K1 in Hx. cbn in Hx. rewrite lookup_insert in Hx. injection Hx as <-. discriminate L.
      * intros wr'. apply unmap_is.
      * intros i b Hb _. rewrite unmap_inodes. exact Hb.
      * intros rid0 r0 H0. eapply ins_regs; eauto.
  - destruct (update_runs _ _ _ _ _ _ _ _ (ho_metrics _ (wo_heap _ W) _ _ Hm) Ha Hu) as [R _].
    destruct (mrun_frame _ _ _ _ _ _ _ R (ho_metrics _ (wo_heap _ W) _ _ Hm)) as (_ & _ & _ & F4 & F5 & _ & _).
    split; cbn [w_heap w_regs w_files].
    + intros mp0 n cl (m0 & c0 & Hm0 & Hc0 & Hu0). cbn in Hm0. left. apply lookup_insert_Some in Hm0 as [[<- <-]|[_ Hm0]]; [|exists m0, c0; auto].
      pose proof (F4 n) as E. rewrite Hc0 in E. destruct (cell_at m n) as [c1|] eqn:E1; [|discriminate]. cbn in E. exists m, c1. split_and!; auto. congruence.
    + intros wr x' Hx. rewrite F5 in Hx. left. exists x'. auto.
    + intros wr Hx. rewrite F5. exact Hx.
    + intros ino b Hb K. rewrite (mrun_live _ _ _ _ _ _ ino R); [exact Hb|]. intros n c cl x Hc Hcl Hx. eapply (K mp n); eauto. exists m, c. auto.
    + eauto.
Qed.

(** ** Files nobody writes any more *)
(** No value of any metric has an update closure into a live mapping of [ino]. *)
Definition frozen (w : world) (ino : nat) : Prop :=
  is_Some (f_inodes (w_files w) !! ino) /\
  forall mp n cl x, closure_at (w_heap w) mp n cl -> f_writers (w_files w) !! cl_writer cl = Some x -> wr_live x = true -> wr_inode x <> ino.

Lemma frozen_step w c o w' ino : w_ok w -> frozen w ino -> wstep w c o w' -> frozen w' ino /\ f_inodes (w_files w') !! ino = f_inodes (w_files w) !! ino.
Proof.
  intros W [[b Hb] F] S. destruct (wstep_files _ _ _ _ W S) as [A1 A2 A3 A4 A5]. pose proof (A4 _ _ Hb F) as Hb'. split; [|congruence].
  split; [eauto|]. intros mp n cl x' Hcl Hx' L. destruct (A2 _ _ Hx') as [(x & Hx & <- & K)|[Hx Hn]].
  - destruct (A1 _ _ _ Hcl) as [Hc|E]; [|congruence]. eapply F; eauto.
  - congruence.
Qed.
Lemma frozen_hist w tr w' ino : w_ok w -> frozen w ino -> hist w tr w' -> frozen w' ino /\ f_inodes (w_files w') !! ino = f_inodes (w_files w) !! ino.
Proof.
  intros W F H. induction H as [|w c o w1 tr w' S H IH]; [auto|]. destruct (frozen_step _ _ _ _ _ W F S) as [F1 E].
  destruct (IH (wstep_ok _ _ _ _ W S) F1) as [F' E']. split; [auto|congruence].
Qed.

(** Every value published through writer [wr] belongs to a metric of registry [rid]. *)
Definition owns (w : world) (rid wr : nat) : Prop :=
  is_Some (f_writers (w_files w) !! wr) /\ exists r, w_regs w !! rid = Some r /\ forall mp n cl, closure_at (w_heap w) mp n cl -> cl_writer cl = wr -> registered r mp.
Lemma owns_step w c o w' rid wr : w_ok w -> owns w rid wr -> wstep w c o w' -> owns w' rid wr.
Proof.
  intros W [Hw (r & Hr & K)] S. destruct (wstep_files _ _ _ _ W S) as [A1 A2 A3 A4 A5]. split; [auto|]. destruct (A5 _ _ Hr) as (r' & Hr' & Hsub).
  exists r'. split; [exact Hr'|]. intros mp n cl Hcl E. destruct (A1 _ _ _ Hcl) as [Hc|En].
  - destruct (K _ _ _ Hc E) as [nm Hnm]. exists nm. eapply lookup_weaken; eauto.
  - rewrite E in En. destruct Hw as [x Hx]. congruence.
Qed.
Lemma owns_hist w tr w' rid wr : w_ok w -> owns w rid wr -> hist w tr w' -> w_ok w' /\ owns w' rid wr.
Proof.
  intros W O H. induction H as [|w c o w1 tr w' S H IH]; [auto|]. apply IH; [eapply wstep_ok; eauto|eapply owns_step; eauto].
Qed.

(** After a Start, its inode is only written by metrics of the registry. *)
Lemma synced_owns w cid gen pid : w_ok w -> synced w cid gen pid -> exists c wr ino, w_clients w !! cid = Some c /\ w_paths w !! cl_loc c = Some ino /\
  f_writers (w_files w) !! wr = Some (mkWriter ino true) /\ owns w (cl_reg c) wr.
Proof.
  intros W (c & r & wr & ino & pl & ad & am & buf & Hc & Hr & Hmap & Hwr & Hpath & S). exists c, wr, ino. pose proof (sy_writer _ _ _ _ _ _ _ _ _ S) as Hw.
  split_and!; auto. split; [eauto|]. exists r. split; [exact Hr|]. intros mp n cl (m & c0 & Hm & Hc0 & Hu) E. exact (sy_own _ _ _ _ _ _ _ _ _ S _ _ _ _ _ Hm Hc0 Hu E).
Qed.

(** A second Start takes all of them away from the first file. *)
Lemma restart_frozen w cid c r gen pid w' wr0 ino0 : reachable w -> w_clients w !! cid = Some c -> w_regs w !! cl_reg c = Some r -> startable (w_heap w) r ->
  owns w (cl_reg c) wr0 -> (exists l, f_writers (w_files w) !! wr0 = Some (mkWriter ino0 l)) -> wstep w (CStart cid gen pid true) ROk w' -> frozen w' ino0.
Proof.
  intros R Hc Hr Hs O [l Hw0] St. pose proof (reachable_ok _ R) as W. destruct (wo_inodes _ W _ _ Hw0) as [b0 Hb0]. cbn in Hb0.
  pose proof St as St0. inversion St as [| | | | | | | | |? ? ? ? c0 r0 wr ino s Hd Hc0 Hr0 Hw Hi SR| | | | | |]; subst. assert (c0 = c) as -> by congruence. assert (r0 = r) as -> by congruence.
  pose proof (wstep_ok _ _ _ _ W St0) as W'. pose proof (start_synced _ _ _ _ _ _ _ _ _ W Hc Hr Hw Hi Hs SR) as (c' & r' & wr' & ino' & pl & ad & am & buf & Hc' & Hr' & Hmap & Hwr' & Hpath & S).
  assert (owns (started w cid c r wr ino s) (cl_reg c) wr0) as [_ (r1 & Hr1 & K)] by exact (owns_step _ _ _ _ _ _ W O St0).
  set (w' := started w cid c r wr ino s) in *. assert (w_clients w' !! cid = Some (mkClient (cl_loc c) (cl_cluster c) (cl_flag c) (cl_reg c) (Some wr))) as Ec by apply lookup_insert.
  assert (wr' = wr) as -> by (rewrite Ec in Hc'; injection Hc' as <-; cbn in Hwr'; congruence). rewrite Ec in Hc'. injection Hc' as <-. cbn [cl_reg] in *.
  assert (r1 = r') as -> by congruence.
  split; [cbn; rewrite lookup_insert_ne by congruence; eauto|].
  intros mp n cl x Hcl Hx L E.
  assert (cl_writer cl = wr0) as Ew.
  { assert (f_writers (w_files w') !! wr0 = Some (mkWriter ino0 l)) as Hw0'. { unfold w', started. cbn. rewrite lookup_insert_ne by congruence. exact Hw0. }
    exact (wo_inj _ W' _ _ _ _ Hx Hw0' E). }
  pose proof (K _ _ _ Hcl Ew) as Hreg. destruct Hcl as (m & c0 & Hm & Hc0' & Hu).
  destruct (sync_value_slot (w_heap w') _ _ _ _ _ _ _ _ mp m n c0 (wo_heap _ W') (wo_regs _ W' _ _ Hr' : reg_ok (w_heap w') (k_reg (start_cfg (mkClient (cl_loc c) (cl_cluster c) (cl_flag c) (cl_reg c) (Some wr)) r' gen pid))) S Hreg Hm Hc0') as (off & Hoff & _).
  rewrite Hu in Hoff. injection Hoff as ->. cbn in Ew. congruence.
Qed.

Lemma writer_kept w tr w' wr ino l : w_ok w -> f_writers (w_files w) !! wr = Some (mkWriter ino l) -> hist w tr w' -> exists l', f_writers (w_files w') !! wr = Some (mkWriter ino l') /\ (l' = true -> l = true).
Proof.
  intros W Hw H. revert l Hw. induction H as [|w c o w1 tr w' S H IH]; intros l Hw; [eauto|].
  destruct (wstep_files _ _ _ _ W S) as [A1 A2 A3 A4 A5]. destruct (A3 wr) as [x Hx]; [eauto|].
  destruct (A2 _ _ Hx) as [(y & Hy & E & K)|[E _]]; [|congruence]. rewrite Hw in Hy. injection Hy as <-. cbn in E, K. destruct x as [i l1]; cbn in *. subst.
  destruct (IH (wstep_ok _ _ _ _ W S) _ Hx) as (l' & Hl' & Kl). exists l'. split; [exact Hl'|auto].
Qed.
Lemma dead_frozen w wr ino : w_ok w -> f_writers (w_files w) !! wr = Some (mkWriter ino false) -> frozen w ino.
Proof.
  intros W Hw. split; [apply (wo_inodes _ W _ _ Hw)|]. intros mp n cl x _ Hx L E. assert (cl_writer cl = wr) as Ew by (eapply (wo_inj _ W); [exact Hx|exact Hw|exact E]).
  rewrite Ew, Hw in Hx. injection Hx as <-. discriminate L.
Qed.
(** Two Starts of one client, anything before, between and after. *)
Lemma old_file_frozen w cid c r gen pid w1 tr1 w2 c2 r2 gen2 pid2 w3 tr2 w4 ino : reachable w -> w_clients w !! cid = Some c -> w_regs w !! cl_reg c = Some r -> startable (w_heap w) r ->
  wstep w (CStart cid gen pid true) ROk w1 -> w_paths w1 !! cl_loc c = Some ino -> hist w1 tr1 w2 ->
  w_clients w2 !! cid = Some c2 -> w_regs w2 !! cl_reg c2 = Some r2 -> startable (w_heap w2) r2 -> wstep w2 (CStart cid gen2 pid2 true) ROk w3 -> hist w3 tr2 w4 ->
  f_inodes (w_files w4) !! ino = f_inodes (w_files w2) !! ino.
Proof.
  intros R Hc Hr Hs St Hp H1 Hc2 Hr2 Hs2 St2 H2.
  destruct (start_step _ _ _ _ _ _ _ R Hc Hr Hs St) as (W1 & S1 & Hr1 & wrx & Hc1).
  destruct (synced_owns _ _ _ _ W1 S1) as (c' & wr & ino' & Hc' & Hp' & Hw & O). rewrite Hc1 in Hc'. injection Hc' as <-. cbn [cl_loc cl_reg] in *. assert (ino' = ino) as -> by congruence.
  destruct (owns_hist _ _ _ _ _ W1 O H1) as [W2 O2]. destruct (writer_kept _ _ _ _ _ _ W1 Hw H1) as (l & Hl & _).
  assert (reachable w1) as R1 by (eapply rtc_r; [exact R|]; eexists _, _; exact St). assert (reachable w2) as R2 by (eapply hist_reachable; eauto).
  assert (cl_reg c2 = cl_reg c) as Ereg.
  { clear -H1 Hc1 Hc2. assert (forall w tr w' c1 c2, hist w tr w' -> w_clients w !! cid = Some c1 -> w_clients w' !! cid = Some c2 -> cl_reg c2 = cl_reg c1) as G.
    { intros w tr w' d1 d2 H. revert d1. induction H as [|v cl o v1 tr v' S H IH]; intros d1 A B; [congruence|].
      assert (exists d, w_clients v1 !! cid = Some d /\ cl_reg d = cl_reg d1) as (d & A1 & E).
      { destruct (step_clients _ _ _ _ _ _ S A) as (d & K1 & K2). exists d. split; [exact K1|]. apply K2. }
      rewrite <- E. eauto. }
    exact (G _ _ _ _ _ H1 Hc1 Hc2). }
  rewrite <- Ereg in O2. pose proof (restart_frozen _ _ _ _ _ _ _ _ ino R2 Hc2 Hr2 Hs2 O2 (ex_intro _ l Hl) St2) as F.
  destruct (frozen_hist _ _ _ _ (wstep_ok _ _ _ _ W2 St2) F H2) as [_ E]. rewrite E.
  destruct (wo_inodes _ W2 _ _ Hl) as [b Hb]. cbn in Hb. inversion St2 as [| | | | | | | | |? ? ? ? c0 r0 wr0 ino0 s Hd Hc0 Hr0 Hw0 Hi SR| | | | | |]; subst.
  unfold started. cbn. rewrite lookup_insert_ne by congruence. reflexivity.
Qed.
(** After Stop the contents never change again. *)
Lemma stopped_frozen w cid c erase w1 tr w2 wr ino l : w_ok w -> w_clients w !! cid = Some c -> cl_wr c = Some wr -> f_writers (w_files w) !! wr = Some (mkWriter ino l) ->
  wstep w (CStop cid erase true) ROk w1 -> hist w1 tr w2 -> f_inodes (w_files w2) !! ino = f_inodes (w_files w) !! ino.
Proof.
  intros W Hc Hwr Hw St H. pose proof (wstep_ok _ _ _ _ W St) as W1.
  inversion St as [| | | | | | | | | | | | |? ? ? c0 r0 ? ? Hd Hc0 Hr0 Hm Hs| |]; subst. assert (c0 = c) as -> by congruence. unfold stopped in Hs. rewrite Hwr in Hs.
  assert (w_files w1 = unmap_writer (w_files w) wr) as E by (destruct erase; simplify_eq; reflexivity).
  assert (f_writers (w_files w1) !! wr = Some (mkWriter ino false)) as Hw1.
  { rewrite E. unfold unmap_writer. rewrite Hw. cbn. apply lookup_insert. }
  destruct (frozen_hist _ _ _ _ W1 (dead_frozen _ _ _ W1 Hw1) H) as [_ K]. rewrite K, E. by rewrite unmap_inodes.
Qed.

(** ** A Start that fails *)
Lemma Dump_zeros n : 0 <= n -> Dump (zeros n) = DErr.
Proof.
  intros Hn. unfold Dump, readHeader. rewrite zlen_zeros by lia. destruct (Z.ltb_spec n DHeaderLength) as [|H]; [reflexivity|]. unfold DHeaderLength in H.
  unfold dec_header. cbn [hd_magic]. rewrite sub_zeros by lia. reflexivity.
Qed.
Lemma start_frame w cid gen pid os o w' c : w_clients w !! cid = Some c -> wstep w (CStart cid gen pid os) o w' ->
  (forall ino b, f_inodes (w_files w) !! ino = Some b -> f_inodes (w_files w') !! ino = Some b) /\ (forall p, p <> cl_loc c -> w_paths w' !! p = w_paths w !! p).
Proof.
  intros Hc S. inversion S as [| | | | | | | | |? ? ? ? c0 r0 wr ino s Hd Hc0 Hr0 Hw Hi SR|? ? ? ? c0 r0 ino s Hd Hc0 Hr0 Hi Hs|? ? ? ? c0 r0 paths inodes Hd Hc0 Hr0 Hs| | | |]; subst; assert (c0 = c) as -> by congruence;
    cbn [w_files w_paths f_inodes started].
  - split; [intros i b Hb; rewrite lookup_insert_ne by congruence; exact Hb|intros p N; rewrite lookup_insert_ne by congruence; reflexivity].
  - split; [intros i b Hb; rewrite lookup_insert_ne by congruence; exact Hb|intros p N; rewrite lookup_insert_ne by congruence; reflexivity].
  - destruct Hs as [E|[E|(i & n & Hi & _ & -> & ->)]]; simplify_eq.
    + auto.
    + split; [auto|]. intros p N. by rewrite lookup_delete_ne by congruence.
    + split; [intros j b Hb; rewrite lookup_insert_ne by congruence; exact Hb|intros p N; rewrite lookup_insert_ne by congruence; reflexivity].
Qed.
Lemma failed_start w cid gen pid o w' c : w_clients w !! cid = Some c -> wstep w (CStart cid gen pid false) o w' ->
  o = RErr /\ w_heap w' = w_heap w /\ w_regs w' = w_regs w /\ w_clients w' = w_clients w /\ w_dead w' = false /\ f_writers (w_files w') = f_writers (w_files w) /\
  (w_paths w' = w_paths w /\ w_files w' = w_files w \/ file_of w' c = None \/ exists n, 0 <= n /\ file_of w' c = Some (zeros n)).
Proof.
  intros Hc S. inversion S as [| | | | | | | | | | |? ? ? ? c0 r0 paths inodes Hd Hc0 Hr0 Hs| | | |]; subst; assert (c0 = c) as -> by congruence; cbn [w_heap w_regs w_clients w_dead w_files f_writers w_paths]. split_and!; auto.
  destruct Hs as [E|[E|(i & n & Hi & Hn & -> & ->)]]; simplify_eq.
  - left. split; [reflexivity|]. by destruct (w_files w).
  - right. left. unfold file_of. cbn [w_paths]. by rewrite lookup_delete.
  - right. right. exists n. split; [lia|]. unfold file_of. cbn [w_paths w_files f_inodes]. rewrite lookup_insert. cbn. apply lookup_insert.
Qed.
(** The atomic steps of World.v are the ones of Files.v. *)
Lemma failed_start_calls w cid gen pid c r w' : w_clients w !! cid = Some c -> w_regs w !! cl_reg c = Some r -> w_dead w = false -> 0 <= Length r ->
  rtc (fstep (cl_loc c) (Length r)) (FStat, world_os w) (FErr, world_os w') -> f_writers (w_files w') = f_writers (w_files w) -> w_heap w' = w_heap w -> w_regs w' = w_regs w -> w_clients w' = w_clients w -> w_offs w' = w_offs w -> w_dead w' = false ->
  wstep w (CStart cid gen pid false) RErr w'.
Proof.
  intros Hc Hr Hd HL R E1 E2 E3 E4 E5 E6. destruct (creating_run _ _ _ _ _ HL R) as [_ _ C _]. destruct w' as [hp regs cls [wrs inos] paths offs dead]. unfold world_os in *. cbn in *. subst.
  apply (ws_start_err w cid gen pid c r paths inos); auto.
  destruct C as [C|[C|(ino & n & Hi & Hn & C)]]; injection C as -> ->; [left; reflexivity|right; left; reflexivity|right; right; exists ino, n; auto].
Qed.
Lemma failed_start_possible w cid gen pid c r o w' : w_clients w !! cid = Some c -> w_regs w !! cl_reg c = Some r -> 0 <= Length r -> is_Some (w_paths w !! cl_loc c) ->
  wstep w (CStart cid gen pid false) o w' -> rtc (fstep (cl_loc c) (Length r)) (FStat, world_os w) (FErr, world_os w').
Proof.
  intros Hc Hr HL Hp S. inversion S as [| | | | | | | | | | |? ? ? ? c0 r0 paths inodes Hd Hc0 Hr0 Hs| | | |]; subst; assert (c0 = c) as -> by congruence. assert (r0 = r) as -> by congruence.
  unfold world_os. cbn [w_paths w_files f_inodes]. destruct Hs as [E|[E|(ino & n & Hi & Hn & -> & ->)]].
  - injection E as -> ->. eapply rtc_l; [apply fs_stat_err|]. apply rtc_once, fs_mkdir_err.
  - injection E as -> ->. eapply rtc_l; [apply fs_stat_ok; exact Hp|]. eapply rtc_l; [apply fs_remove_ok|]. apply rtc_once. apply (fs_mkdir_err _ _ (mkOs _ _)).
  - eapply rtc_l; [apply fs_stat_ok; exact Hp|]. eapply rtc_l; [apply fs_remove_ok|]. eapply rtc_l; [apply fs_mkdir_ok|]. cbn [os_paths os_inodes].
    eapply rtc_l; [apply (fs_open_ok _ _ _ ino); cbn [os_paths os_inodes]; [apply lookup_delete|exact Hi]|]. cbn [os_paths os_inodes].
    eapply rtc_l; [apply (fs_write_part _ _ _ _ [] n); cbn [os_inodes]; [apply lookup_insert|lia|change (zlen []) with 0; lia]|].
    unfold grow. cbn [os_paths os_inodes app]. rewrite insert_insert, insert_delete_insert. apply rtc_once, fs_write_err.
Qed.
(** A started client whose restart fails still stores without faulting. *)
Lemma failed_restart_updates w cid gen pid gen' pid' c r o w1 mp op mst o2 w2 : w_ok w -> synced w cid gen pid -> w_clients w !! cid = Some c -> w_regs w !! cl_reg c = Some r ->
  wstep w (CStart cid gen' pid' false) o w1 -> registered r mp -> op_fits op -> wstep w1 (CUpdate mp op mst) o2 w2 -> o2 <> RFault.
Proof.
  intros W (c' & r' & wr & ino & pl & ad & am & buf & Hc & Hr & Hmap & Hwr & Hpath & S) Hc' Hr' Hst Hreg Hf Su.
  assert (c' = c) as -> by congruence. assert (r' = r) as -> by congruence. pose proof (wstep_ok _ _ _ _ W Hst) as W1.
  destruct (start_frame _ _ _ _ _ _ _ _ Hc Hst) as [F1 _]. destruct (failed_start _ _ _ _ _ _ _ Hc Hst) as (_ & E1 & E2 & E3 & _ & E4 & _).
  assert (sync (w_heap w1) (w_files w1) (start_cfg c r gen pid) wr ino pl ad am buf) as S1.
  { rewrite E1. destruct S as [A1 A2 A3 A4 A5 A6 A7]. split; auto. by rewrite E4. }
  assert (w_regs w1 !! cl_reg c = Some r) as Hr1 by congruence. pose proof (wo_heap _ W1) as Hh. pose proof (wo_regs _ W1 _ _ Hr1) as Hro.
  inversion Su as [| | | | | | | | | | | | | | |? ? ? ? m ? fs' m' Hd Hm Ha Hrun]; subst. pose proof (ho_metrics _ Hh _ _ Hm) as Hok.
  destruct (update_runs _ _ _ _ _ _ _ _ Hok Ha Hrun) as [_ R]. specialize (R Hf).
  destruct (sync_run _ _ _ _ _ _ R (w_heap w1) (start_cfg c r gen pid) wr ino pl ad am buf mp) as (F & _); auto. exact (wo_inj _ W1).
Qed.
