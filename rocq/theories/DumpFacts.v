(** All schedules of the reader's goroutines. *)
From Verif Require Import Base BaseFacts Floats GoVal Mmvdump DumpSched.

(** ** One section *)
(** [m] holds exactly what [f] reads at the offsets [offs]. *)
Definition sec_map {A} (f : Z -> ires A) (offs : list Z) (m : gmap Z A) : Prop :=
  forall o x, m !! o = Some x <-> o ∈ offs /\ f o = IOk x.
Lemma sec_map_unique {A} (f : Z -> ires A) offs m m' : sec_map f offs m -> sec_map f offs m' -> m = m'.
Proof. intros H1 H2. apply map_eq. intros o. apply option_eq. intros x. by rewrite (H1 o x), (H2 o x). Qed.

Definition sect_offs (version : Z) (t : toc) : list Z :=
  item_offs (tc_offset t) (item_len version (tc_type t)) (Z.to_nat (tc_count t)).
Definition rd (data : list byte) (version : Z) (t : toc) : Z -> ires ditem := read_item data version (tc_type t).

Lemma read_items_n_spec {A} (f : Z -> ires A) len n : forall off (acc m : gmap Z A),
  read_items_n n off len f acc = IOk m ->
  Forall (fun o => exists x, f o = IOk x) (item_offs off len n) /\
  forall o x, m !! o = Some x <-> (o ∈ item_offs off len n /\ f o = IOk x) \/ (o ∉ item_offs off len n /\ acc !! o = Some x).
Proof.
  induction n as [|n IH]; intros off acc m H; cbn [read_items_n item_offs] in *.
  - injection H as <-. split; [constructor|]. intros o x. rewrite elem_of_nil. tauto.
  - destruct (f off) as [y| |] eqn:E; try discriminate. apply IH in H as [H1 H2]. split; [constructor; eauto|].
    intros o x. rewrite H2, elem_of_cons. destruct (decide (o = off)) as [->|Hne].
    + rewrite lookup_insert. split.
      * intros [[? ?]|[? [= <-]]]; auto.
      * intros [[? ?]|[? ?]]; [|tauto]. destruct (decide (off ∈ item_offs (to_unsigned 64 (off + len)) len n)); [auto|right]. split; congruence.
    + rewrite lookup_insert_ne by done. tauto.
Qed.
Lemma read_items_n_conv {A} (f : Z -> ires A) len n : forall off (acc : gmap Z A),
  Forall (fun o => exists x, f o = IOk x) (item_offs off len n) -> exists m, read_items_n n off len f acc = IOk m.
Proof.
  induction n as [|n IH]; intros off acc H; cbn [read_items_n item_offs] in *; [eauto|].
  inversion H as [|? ? [x E] H2]; subst. rewrite E. eauto.
Qed.
Lemma read_items_n_err {A} (f : Z -> ires A) len n : forall off (acc : gmap Z A),
  (forall o, o ∈ item_offs off len n -> f o <> IPanic) -> read_items_n n off len f acc <> IPanic.
Proof.
  induction n as [|n IH]; intros off acc H; cbn [read_items_n item_offs] in *; [discriminate|].
  destruct (f off) as [x| |] eqn:E; [|discriminate|].
  - apply IH. intros o Ho. apply H. by right.
  - destruct (H off); [by left|done].
Qed.
Lemma item_offs_length off len n : length (item_offs off len n) = n.
Proof. revert off; induction n; intros; cbn; auto. Qed.

(** ** The invariant *)
Section inv.
Context (data : list byte) (version : Z).
Notation step := (dstep data version).

Definition pc_inv (t : toc) (items : gmap Z ditem) (err : bool) (p : Z * gpc) : Prop :=
  match p.2 with
  | GCheck | GRead => True
  | GStore x => rd data version t p.1 = IOk x
  | GFail => rd data version t p.1 = IErr
  | GEnd => err = true \/ exists x, rd data version t p.1 = IOk x /\ items !! p.1 = Some x
  end.
Record sect_inv (s : sect) : Prop := {
  si_fresh : s_started s = false -> s_ret s = false;
  si_known : s_started s = true -> known_type (tc_type (s_toc s)) = true /\ 0 <= tc_count (s_toc s) /\ (s_pcs s).*1 = sect_offs version (s_toc s);
  si_pcs : s_started s = true -> Forall (pc_inv (s_toc s) (s_items s) (s_err s)) (s_pcs s);
  si_items : s_started s = true -> forall o x, s_items s !! o = Some x -> o ∈ sect_offs version (s_toc s) /\ rd data version (s_toc s) o = IOk x;
  si_err : s_started s = true -> s_err s = true -> exists o, o ∈ sect_offs version (s_toc s) /\ rd data version (s_toc s) o = IErr;
  si_ret : s_ret s = true -> all_end (s_pcs s) }.
Definition sres (s : sect) : option (gmap Z ditem) := if s_err s then None else Some (s_items s).
Record ginv (tocs : list toc) (ss : list sect) (res : gmap Z (option (gmap Z ditem))) : Prop := {
  gi_tocs : map s_toc ss = tocs;
  gi_sects : Forall sect_inv ss;
  gi_some : forall t v, res !! t = Some v -> exists s, s ∈ ss /\ s_ret s = true /\ tc_type (s_toc s) = t /\ sres s = v;
  gi_last : forall s, s ∈ ss -> s_ret s = true -> NoDup (map tc_type tocs) -> res !! tc_type (s_toc s) = Some (sres s);
  gi_any : forall s, s ∈ ss -> s_ret s = true -> is_Some (res !! tc_type (s_toc s)) }.

Lemma ginv_init tocs : ginv tocs (map new_sect tocs) ∅.
Proof.
  split.
  - rewrite map_map. apply map_id.
  - apply Forall_forall. intros s Hs. apply elem_of_list_fmap in Hs as (t & -> & _). split; cbn; done.
  - intros t v H. by rewrite lookup_empty in H.
  - intros s Hs. apply elem_of_list_fmap in Hs as (t & -> & _). done.
  - intros s Hs. apply elem_of_list_fmap in Hs as (t & -> & _). done.
Qed.

Lemma pc_inv_mono t items err items' err' p : (forall o x, rd data version t o = IOk x -> items !! o = Some x -> items' !! o = Some x) -> (err = true -> err' = true) ->
  pc_inv t items err p -> pc_inv t items' err' p.
Proof. intros H1 H2. unfold pc_inv. destruct (p.2); auto. intros [?|(x & A & B)]; eauto. Qed.

Lemma gpc_step_inv s p1 o p p2 p' items err : sect_inv s -> s_started s = true -> s_pcs s = p1 ++ (o, p) :: p2 -> p <> GEnd ->
  gpc_step data version s o p = Some (p', items, err) -> s_ret s = false /\
  sect_inv (mkSect (s_toc s) true (p1 ++ (o, p') :: p2) items err (s_ret s)).
Proof.
  intros I Hs Hp Hne Hg. assert (s_ret s = false) as Hret.
  { destruct (s_ret s) eqn:E; [|done]. pose proof (si_ret _ I E) as A. unfold all_end in A. rewrite Hp in A.
    apply Forall_app in A as [_ A]. inversion A; subst. by destruct Hne. }
  split; [done|]. destruct (si_known _ I Hs) as (K1 & K2 & K3). pose proof (si_pcs _ I Hs) as KP. pose proof (si_items _ I Hs) as KI. pose proof (si_err _ I Hs) as KE.
  rewrite Hp in KP, K3. apply Forall_app in KP as [F1 F2]. apply Forall_cons_1 in F2 as [F2 F3].
  assert (o ∈ sect_offs version (s_toc s)) as Ho by (rewrite <- K3, fmap_app, fmap_cons; set_solver).
  assert (forall it e, (forall o x, rd data version (s_toc s) o = IOk x -> s_items s !! o = Some x -> it !! o = Some x) -> (s_err s = true -> e = true) ->
    pc_inv (s_toc s) it e (o, p') -> (forall o x, it !! o = Some x -> o ∈ sect_offs version (s_toc s) /\ rd data version (s_toc s) o = IOk x) ->
    (e = true -> exists o, o ∈ sect_offs version (s_toc s) /\ rd data version (s_toc s) o = IErr) ->
    sect_inv (mkSect (s_toc s) true (p1 ++ (o, p') :: p2) it e (s_ret s))) as G.
  { intros it e M1 M2 M3 M4 M5. split; cbn; try done; try congruence.
    - intros _. split_and!; auto. rewrite <- K3, !fmap_app, !fmap_cons. done.
    - intros _. apply Forall_app. split; [|constructor; [done|]]; eapply Forall_impl; eauto; intros ?; by apply pc_inv_mono. }
  destruct p; cbn in Hg.
  - injection Hg as <- <- <-. apply G; auto. destruct (s_err s) eqn:E; cbn; auto.
  - unfold rd in *. destruct (read_item data version (tc_type (s_toc s)) o) eqn:E; try discriminate; injection Hg as <- <- <-; apply G; auto.
  - injection Hg as <- <- <-. cbn in F2. apply G; auto.
    + intros o' x' R1 R2. destruct (decide (o' = o)) as [->|]; [|by rewrite lookup_insert_ne]. rewrite lookup_insert. congruence.
    + cbn. right. exists x. split; [done|]. by rewrite lookup_insert.
    + intros o' x' R. destruct (decide (o' = o)) as [->|]; [rewrite lookup_insert in R|rewrite lookup_insert_ne in R by done; auto]. injection R as <-. auto.
  - injection Hg as <- <- <-. cbn in F2. apply G; auto; [by left|eauto].
  - done.
Qed.

Lemma NoDup_type_pos (l1 : list sect) s l2 s' : NoDup (map tc_type (map s_toc (l1 ++ s :: l2))) -> s' ∈ l1 \/ s' ∈ l2 -> tc_type (s_toc s') <> tc_type (s_toc s).
Proof.
  rewrite map_map, map_app. cbn [map]. intros H Hin E. apply NoDup_app in H as (_ & H2 & H3). apply NoDup_cons in H3 as [H3 _].
  destruct Hin as [Hin|Hin].
  - apply (H2 (tc_type (s_toc s'))); [apply elem_of_list_fmap; eauto|]. rewrite E. by left.
  - apply H3. rewrite <- E. apply elem_of_list_fmap. eauto.
Qed.

Lemma ginv_step tocs ss res x : ginv tocs ss res -> step (DRun ss res) x -> match x with DRun ss' res' => ginv tocs ss' res' | DCrash => True end.
Proof.
  intros I St. inversion St as [l1 s l2 r K S0 Hc| |l1 s l2 r p1 o p p2 p' items err S0 Hp Hne Hg| |l1 s l2 r S0 S1 HE]; subst; auto;
    destruct I as [I1 I2 I3 I4 I5]; apply Forall_app in I2 as [F1 F2]; apply Forall_cons_1 in F2 as [F2 F3].
  - assert (s_ret s = false) as Hr by by apply (si_fresh _ F2).
    split.
    + rewrite <- I1, !map_app. done.
    + apply Forall_app. split; [done|]. constructor; [|done]. split; cbn; try done.
      * intros _. split_and!; auto. change (map (fun o => (o, GCheck)) ?l) with ((fun o : Z => (o, GCheck)) <$> l). rewrite <- list_fmap_compose.
        change (map (fun x => x) (sect_offs version (s_toc s)) = sect_offs version (s_toc s)). apply map_id.
      * intros _. apply Forall_forall. intros q Hq. apply elem_of_list_fmap in Hq as (o & -> & _). done.
    + intros t v Hv. destruct (I3 t v Hv) as (s' & A1 & A2 & A3 & A4). exists s'. split_and!; auto. apply elem_of_app in A1 as [A1|A1]; [set_solver|].
      apply elem_of_cons in A1 as [->|A1]; [congruence|set_solver].
    + intros s' Hs' Hr'. apply I4; auto. apply elem_of_app in Hs' as [A1|A1]; [set_solver|]. apply elem_of_cons in A1 as [->|A1]; [done|set_solver].
    + intros s' Hs' Hr'. apply I5; auto. apply elem_of_app in Hs' as [A1|A1]; [set_solver|]. apply elem_of_cons in A1 as [->|A1]; [done|set_solver].
  - destruct (gpc_step_inv s _ _ _ _ _ _ _ F2 S0 Hp Hne Hg) as [Hr F2']. split.
    + rewrite <- I1, !map_app. done.
    + apply Forall_app. auto.
    + intros t v Hv. destruct (I3 t v Hv) as (s' & A1 & A2 & A3 & A4). exists s'. split_and!; auto. apply elem_of_app in A1 as [A1|A1]; [set_solver|].
      apply elem_of_cons in A1 as [->|A1]; [congruence|set_solver].
    + intros s' Hs' Hr'. apply I4; auto. apply elem_of_app in Hs' as [A1|A1]; [set_solver|]. apply elem_of_cons in A1 as [->|A1]; [cbn in Hr'; congruence|set_solver].
    + intros s' Hs' Hr'. apply I5; auto. apply elem_of_app in Hs' as [A1|A1]; [set_solver|]. apply elem_of_cons in A1 as [->|A1]; [cbn in Hr'; congruence|set_solver].
  - set (s' := mkSect (s_toc s) true (s_pcs s) (s_items s) (s_err s) true).
    split.
    + rewrite <- I1, !map_app. done.
    + apply Forall_app. split; [done|]. constructor; [|done]. destruct F2. split; cbn; auto.
    + intros t v Hv. destruct (decide (t = tc_type (s_toc s))) as [->|Hne].
      * rewrite lookup_insert in Hv. injection Hv as <-. exists s'. split_and!; auto. set_solver.
      * rewrite lookup_insert_ne in Hv by done. destruct (I3 t v Hv) as (s2 & A1 & A2 & A3 & A4). exists s2. split_and!; auto. apply elem_of_app in A1 as [A1|A1]; [set_solver|].
        apply elem_of_cons in A1 as [->|A1]; [congruence|set_solver].
    + intros s2 Hs' Hr' ND. apply elem_of_app in Hs' as [A1|A1]; [|apply elem_of_cons in A1 as [->|A1]].
      * rewrite lookup_insert_ne; [apply I4; auto; set_solver|]. apply not_eq_sym, (NoDup_type_pos l1 s l2); [by rewrite I1|auto].
      * cbn. by rewrite lookup_insert.
      * rewrite lookup_insert_ne; [apply I4; auto; set_solver|]. apply not_eq_sym, (NoDup_type_pos l1 s l2); [by rewrite I1|auto].
    + intros s2 Hs' Hr'. destruct (decide (tc_type (s_toc s2) = tc_type (s_toc s))) as [->|Hne]; [rewrite lookup_insert; eauto|]. rewrite lookup_insert_ne by done.
      apply elem_of_app in Hs' as [A1|A1]; [|apply elem_of_cons in A1 as [->|A1]]; [apply I5; auto; set_solver|by destruct Hne|apply I5; auto; set_solver].
Qed.
Lemma ginv_reach tocs x : rtc step (dinit tocs) x -> match x with DRun ss res => ginv tocs ss res | DCrash => True end.
Proof.
  intros H. remember (dinit tocs) as x0 eqn:E.
  assert (match x0 with DRun ss res => ginv tocs ss res | DCrash => True end) as I by (subst; apply ginv_init). clear E.
  induction H as [x|x y z S H IH]; [done|]. apply IH. destruct x; [|inversion S]. eapply ginv_step; eauto.
Qed.

Definition fresh_ok (x : dst) : Prop := match x with DRun ss _ => forall s, s ∈ ss -> s_started s = false -> s_pcs s = [] /\ s_items s = ∅ | DCrash => True end.
Lemma fresh_step x y : fresh_ok x -> step x y -> fresh_ok y.
Proof.
  intros IH St. destruct x as [ss0 res0|]; [|inversion St]. cbn in IH.
  inversion St as [l1 s l2 r K S0 Hc| |l1 s l2 r p1 o p p2 p' items err S0 Hp Hne Hg| |l1 s l2 r S0 S1 HE]; subst; try exact I; intros s' Hs' Hf;
    apply elem_of_app in Hs' as [A1|A1]; [apply IH; auto; set_solver| |apply IH; auto; set_solver| |apply IH; auto; set_solver|];
    (apply elem_of_cons in A1 as [->|A1]; [discriminate|apply IH; auto; set_solver]).
Qed.
Lemma fresh_empty tocs ss res : rtc step (dinit tocs) (DRun ss res) -> forall s, s ∈ ss -> s_started s = false -> s_pcs s = [] /\ s_items s = ∅.
Proof.
  intros H. assert (forall x y, rtc step x y -> fresh_ok x -> fresh_ok y) as G by (induction 1; eauto using fresh_step).
  apply (G _ _ H). intros s Hs _. apply elem_of_list_fmap in Hs as (t & -> & _). done.
Qed.

(** A finished section without error holds the items of all its offsets; with an error one offset is bad. *)
Lemma sect_done s : sect_inv s -> s_ret s = true -> 
  known_type (tc_type (s_toc s)) = true /\ 0 <= tc_count (s_toc s) /\
  match sres s with
  | Some m => sec_map (rd data version (s_toc s)) (sect_offs version (s_toc s)) m /\ (forall o, o ∈ sect_offs version (s_toc s) -> exists x, rd data version (s_toc s) o = IOk x)
  | None => exists o, o ∈ sect_offs version (s_toc s) /\ rd data version (s_toc s) o = IErr
  end.
Proof.
  intros I Hr. assert (s_started s = true) as Hs by (destruct (s_started s) eqn:E; [done|]; rewrite (si_fresh _ I E) in Hr; done).
  destruct (si_known _ I Hs) as (K1 & K2 & K3). split_and!; auto. unfold sres. destruct (s_err s) eqn:E; [by apply (si_err _ I Hs)|].
  assert (forall o, o ∈ sect_offs version (s_toc s) -> exists x, rd data version (s_toc s) o = IOk x /\ s_items s !! o = Some x) as A.
  { intros o Ho. rewrite <- K3 in Ho. apply elem_of_list_fmap in Ho as ([o' p] & -> & Hp). pose proof (si_ret _ I Hr) as R. unfold all_end in R. rewrite Forall_forall in R.
    specialize (R _ Hp). cbn in R. subst p. pose proof (si_pcs _ I Hs) as P. rewrite Forall_forall in P. specialize (P _ Hp). cbn in P. rewrite E in P.
    destruct P as [?|P]; [done|]. exact P. }
  split; [|intros o Ho; destruct (A o Ho) as (x & ? & _); eauto].
  intros o x. split; [apply (si_items _ I Hs)|]. intros [H1 H2]. destruct (A o H1) as (y & B1 & B2). cbn in *. congruence.
Qed.

(** ** Termination and progress *)
Definition pc_weight (p : Z * gpc) : nat := match p.2 with GCheck => 3 | GRead => 2 | GStore _ | GFail => 1 | GEnd => 0 end.
Definition sect_weight (s : sect) : nat :=
  if s_started s then sum_list_with pc_weight (s_pcs s) + (if s_ret s then 0 else 1)
  else 2 + 3 * Z.to_nat (tc_count (s_toc s)).
Definition dweight (x : dst) : nat := match x with DRun ss _ => 1 + sum_list_with sect_weight ss | DCrash => 0 end.
Lemma sum_with_app {A} (f : A -> nat) l1 l2 : sum_list_with f (l1 ++ l2) = (sum_list_with f l1 + sum_list_with f l2)%nat.
Proof. induction l1; cbn; [done|]. rewrite IHl1. lia. Qed.
Lemma dstep_weight x y : step x y -> (dweight y < dweight x)%nat.
Proof.
  intros St. inversion St as [l1 s l2 r K S0 Hc| |l1 s l2 r p1 o p p2 p' items err S0 Hp Hne Hg| |l1 s l2 r S0 S1 HE]; subst; cbn [dweight]; rewrite ?sum_with_app; cbn [sum_list_with]; try lia.
  - assert (forall l, sum_list_with pc_weight (map (fun o => (o, GCheck)) l) = 3 * length l)%nat as E by (induction l; cbn in *; lia).
    unfold sect_weight at 2 5. rewrite S0. cbn. rewrite E, item_offs_length. lia.
  - unfold sect_weight at 2 5. rewrite S0. cbn. rewrite Hp, !sum_with_app. cbn [sum_list_with].
    assert (pc_weight (o, p') < pc_weight (o, p))%nat; [|lia].
    destruct p; cbn in Hg; [| | | |done]; [destruct (s_err s); injection Hg as <- <- <-; cbn; lia| |injection Hg as <- <- <-; cbn; lia|injection Hg as <- <- <-; cbn; lia].
    destruct (read_item _ _ _ _); try discriminate; injection Hg as <- <- <-; cbn; lia.
  - unfold sect_weight at 2 5. rewrite S0, S1. cbn. lia.
Qed.
Lemma drun_bounded n x y : nsteps step n x y -> (n + dweight y <= dweight x)%nat.
Proof. induction 1 as [|? ? ? ? S H IH]; [lia|]. apply dstep_weight in S. lia. Qed.

Lemma not_all_end l : ~ all_end l -> exists p1 o p p2, l = p1 ++ (o, p) :: p2 /\ p <> GEnd.
Proof.
  induction l as [|[o p] l IH]; intros H; [destruct H; constructor|].
  destruct p; try (exists [], o; eexists; eexists; split; [reflexivity|discriminate]).
  destruct IH as (p1 & o' & p & p2 & -> & Hp); [intros A; apply H; by constructor|]. exists ((o, GEnd) :: p1), o', p, p2. done.
Qed.
Lemma all_end_dec l : {all_end l} + {~ all_end l}.
Proof. unfold all_end. apply Forall_dec. intros [o p]. destruct p; cbn; [right|right|right|right|left]; congruence. Qed.

(** Only a section of unknown type can block. *)
Lemma sect_progress s : s_ret s = false -> known_type (tc_type (s_toc s)) = true -> forall l1 l2 res, exists x, step (DRun (l1 ++ s :: l2) res) x.
Proof.
  intros Hr Hk l1 l2 res. destruct (s_started s) eqn:Es.
  - destruct (all_end_dec (s_pcs s)) as [A|A]; [eexists; by apply ds_return|].
    apply not_all_end in A as (p1 & o & p & p2 & Hp & Hne). destruct (gpc_step data version s o p) as [[[p' it] e]|] eqn:E.
    + eexists. eapply ds_item; eauto.
    + eexists. eapply ds_panic; eauto.
  - destruct (Z_lt_dec (tc_count (s_toc s)) 0); eexists; [by apply ds_negative|]. apply ds_start; auto. lia.
Qed.
Lemma not_all_returned ss : ~ all_returned ss -> exists l1 s l2, ss = l1 ++ s :: l2 /\ s_ret s = false.
Proof.
  induction ss as [|s ss IH]; intros H; [destruct H; constructor|].
  destruct (s_ret s) eqn:E; [|exists [], s, ss; done].
  destruct IH as (l1 & s' & l2 & -> & Hp); [intros A; apply H; by constructor|]. exists (s :: l1), s', l2. done.
Qed.
Lemma all_returned_dec l : {all_returned l} + {~ all_returned l}.
Proof. unfold all_returned. apply Forall_dec. intros s. destruct (s_ret s); [left|right]; congruence. Qed.

(** Every reachable state runs into an end state; it blocks exactly when only sections of unknown type are left. *)
Lemma sect_stuck s : sect_inv s -> s_ret s = true \/ known_type (tc_type (s_toc s)) = false ->
  (s_started s = false -> known_type (tc_type (s_toc s)) = false) /\ (s_started s = true -> s_ret s = true /\ all_end (s_pcs s)).
Proof.
  intros I H. split; intros Hs.
  - destruct H; [|done]. rewrite (si_fresh _ I Hs) in H. done.
  - destruct H as [H|H]; [split; [done|by apply (si_ret _ I)]|]. destruct (si_known _ I Hs) as [K _]. congruence.
Qed.
Lemma all_end_mid p1 o p p2 : all_end (p1 ++ (o, p) :: p2) -> p = GEnd.
Proof. intros A. apply Forall_app in A as [_ A]. apply Forall_cons_1 in A as [A _]. exact A. Qed.
Lemma stuck tocs ss res : ginv tocs ss res -> (forall s, s ∈ ss -> s_ret s = true \/ known_type (tc_type (s_toc s)) = false) -> forall x, ~ step (DRun ss res) x.
Proof.
  intros I H x St. pose proof (gi_sects _ _ _ I) as F. rewrite Forall_forall in F.
  assert (forall s, s ∈ ss -> (s_started s = false -> known_type (tc_type (s_toc s)) = false) /\ (s_started s = true -> s_ret s = true /\ all_end (s_pcs s))) as G
    by (intros s Hs; apply sect_stuck; auto).
  inversion St as [l1 s l2 r K S0 Hc|l1 s l2 r K S0 Hc|l1 s l2 r p1 o p p2 p' items err S0 Hp Hne Hg|l1 s l2 r p1 o p p2 S0 Hp Hg|l1 s l2 r S0 S1 HE]; subst;
    (destruct (G s) as [G1 G2]; [set_solver|]).
  - rewrite G1 in K; done.
  - rewrite G1 in K; done.
  - destruct (G2 S0) as [_ A]. rewrite Hp in A. by apply all_end_mid in A.
  - destruct (G2 S0) as [_ A]. rewrite Hp in A. apply all_end_mid in A as ->. done.
  - destruct (G2 S0). congruence.
Qed.
Lemma can_step_dec (ss : list sect) : {exists s, s ∈ ss /\ s_ret s = false /\ known_type (tc_type (s_toc s)) = true} + {forall s, s ∈ ss -> s_ret s = true \/ known_type (tc_type (s_toc s)) = false}.
Proof.
  induction ss as [|s ss [IH|IH]].
  - right. intros s H. by apply elem_of_nil in H.
  - left. destruct IH as (s' & ? & ?). exists s'. set_solver.
  - destruct (s_ret s) eqn:E1; [|destruct (known_type (tc_type (s_toc s))) eqn:E2].
    + right. intros s' H. apply elem_of_cons in H as [->|H]; auto.
    + left. exists s. set_solver.
    + right. intros s' H. apply elem_of_cons in H as [->|H]; auto.
Qed.
Lemma progress (ss : list sect) res s : s ∈ ss -> s_ret s = false -> known_type (tc_type (s_toc s)) = true -> exists y, step (DRun ss res) y.
Proof. intros H1 H2 H3. apply elem_of_list_split in H1 as (l1 & l2 & ->). by apply sect_progress. Qed.
Lemma drun_exists tocs n : forall ss res, ginv tocs ss res -> (dweight (DRun ss res) <= n)%nat -> exists y, rtc step (DRun ss res) y /\
  (y = DCrash \/ exists ss res, y = DRun ss res /\ (all_returned ss \/ ~ all_returned ss /\ forall z, ~ step y z)).
Proof.
  induction n as [|n IH]; intros ss res I Hx; [cbn in Hx; lia|].
  destruct (all_returned_dec ss) as [A|A]; [eexists; split; [constructor|right; eauto]|].
  destruct (can_step_dec ss) as [(s & A1 & A2 & A3)|A1].
  - destruct (progress ss res s A1 A2 A3) as [y Hy]. pose proof (dstep_weight _ _ Hy). pose proof (ginv_step _ _ _ _ I Hy) as I'. destruct y as [ss' res'|].
    + destruct (IH ss' res' I') as (z & H1 & H2); [lia|]. exists z. split; [eapply rtc_l; eauto|done].
    + exists DCrash. split; [by apply rtc_once|by left].
  - eexists. split; [constructor|]. right. exists ss, res. split; [done|]. right. split; [done|]. by eapply stuck.
Qed.
End inv.

(** ** Whole runs *)
(** Every execution can be completed, so [dump_run] is never empty. *)
Lemma dump_run_total data : exists o, dump_run data o.
Proof.
  destruct (readHeader data) as [h|] eqn:E; [|eexists; by apply dr_header].
  destruct (Z_lt_dec (hd_toc h) 0) as [A|A]; [eexists; by eapply dr_count|]. 
  destruct (read_tocs data DHeaderLength (Z.to_nat (hd_toc h))) as [tocs|] eqn:E2; [|eexists; eapply dr_tocs; eauto; lia].
  destruct (drun_exists data (hd_version h) tocs _ _ _ (ginv_init data (hd_version h) tocs) (le_n _)) as (y & H & [->|(ss & res & -> & [B|[B C]])]).
  - eexists. eapply dr_crash; eauto. lia.
  - eexists. eapply dr_done; eauto. lia.
  - eexists. eapply dr_hang; eauto. lia.
Qed.

(** The sections are all readable. *)
Definition sect_ok (data : list byte) (version : Z) (t : toc) : Prop :=
  known_type (tc_type t) = true /\ 0 <= tc_count t /\ forall o, o ∈ sect_offs version t -> exists x, rd data version t o = IOk x.
Definition sect_safe (data : list byte) (version : Z) (t : toc) : Prop :=
  known_type (tc_type t) = true /\ 0 <= tc_count t /\ forall o, o ∈ sect_offs version t -> rd data version t o <> IPanic.
Lemma sect_ok_safe data version t : sect_ok data version t -> sect_safe data version t.
Proof. intros (A & B & C). split_and!; auto. intros o Ho. destruct (C o Ho) as [x ->]. done. Qed.

Lemma no_crash data version tocs : Forall (sect_safe data version) tocs -> ~ rtc (dstep data version) (dinit tocs) DCrash.
Proof.
  intros F H. apply rtc_inv_r in H as [H|(y & H & St)]; [discriminate|]. destruct y as [ss res|]; [|inversion St].
  pose proof (ginv_reach _ _ _ _ H) as I. cbn in I. rewrite Forall_forall in F.
  assert (forall s, s ∈ ss -> sect_safe data version (s_toc s)) as G.
  { intros s Hs. apply F. rewrite <- (gi_tocs _ _ _ _ _ I). apply elem_of_list_fmap. eauto. }
  pose proof (gi_sects _ _ _ _ _ I) as GI. rewrite Forall_forall in GI.
  inversion St as [|l1 s l2 r K S0 Hc| |l1 s l2 r p1 o p p2 S0 Hp Hg|]; subst; (destruct (G s) as (G1 & G2 & G3); [set_solver|]); [lia|].
  destruct (si_known _ _ _ (GI s ltac:(set_solver)) S0) as (_ & _ & K).
  destruct p; try discriminate. cbn in Hg. apply (G3 o); [rewrite <- K, Hp, fmap_app, fmap_cons; set_solver|]. unfold rd.
  by destruct (read_item _ _ _ _).
Qed.
Lemma no_hang data version tocs ss res : Forall (fun t => known_type (tc_type t) = true) tocs -> rtc (dstep data version) (dinit tocs) (DRun ss res) ->
  ~ all_returned ss -> exists y, dstep data version (DRun ss res) y.
Proof.
  intros F H A. pose proof (ginv_reach _ _ _ _ H) as I. cbn in I. rewrite Forall_forall in F.
  apply not_all_returned in A as (l1 & s & l2 & -> & Hr). apply sect_progress; [done|]. apply F. rewrite <- (gi_tocs _ _ _ _ _ I). apply elem_of_list_fmap. exists s. set_solver.
Qed.

(** What all schedules compute when all items are readable. *)
Definition tmap {A} (data : list byte) (version : Z) (tocs : list toc) (ty : Z) (as_x : ditem -> option A) (m : gmap Z A) : Prop :=
  forall o x, m !! o = Some x <-> exists t it, t ∈ tocs /\ tc_type t = ty /\ o ∈ sect_offs version t /\ rd data version t o = IOk it /\ as_x it = Some x.
Lemma tmap_unique {A} data version tocs ty (as_x : ditem -> option A) m m' : tmap data version tocs ty as_x m -> tmap data version tocs ty as_x m' -> m = m'.
Proof. intros H1 H2. apply map_eq. intros o. apply option_eq. intros x. by rewrite (H1 o x), (H2 o x). Qed.

Lemma typed_tmap {A} data version tocs ss res ty (as_x : ditem -> option A) : ginv data version tocs ss res -> all_returned ss -> NoDup (map tc_type tocs) ->
  (forall t, res !! t <> Some None) -> tmap data version tocs ty as_x (typed as_x (res !! ty)).
Proof.
  intros I HR ND HN o x. unfold all_returned in HR. rewrite Forall_forall in HR. pose proof (gi_sects _ _ _ _ _ I) as GI. rewrite Forall_forall in GI. split.
  - intros H. destruct (res !! ty) as [[m|]|] eqn:E; cbn in H; [|by rewrite lookup_empty in H..].
    destruct (gi_some _ _ _ _ _ I _ _ E) as (s & S1 & S2 & S3 & S4). rewrite lookup_omap in H. destruct (m !! o) as [it|] eqn:Em; [|done]. cbn in H.
    destruct (sect_done _ _ s (GI s S1) S2) as (_ & _ & D). rewrite S4 in D. destruct D as [D _]. apply D in Em as [E1 E2].
    exists (s_toc s), it. split_and!; auto. rewrite <- (gi_tocs _ _ _ _ _ I). apply elem_of_list_fmap. eauto.
  - intros (t & it & Ht & <- & Ho & R & Hx). rewrite <- (gi_tocs _ _ _ _ _ I) in Ht. apply elem_of_list_fmap in Ht as (s & -> & S1).
    pose proof (HR _ S1) as S2. pose proof (gi_last _ _ _ _ _ I s S1 S2 ND) as E. rewrite E.
    destruct (sect_done _ _ s (GI s S1) S2) as (_ & _ & D). destruct (sres s) as [m|] eqn:Es; [|by destruct (HN (tc_type (s_toc s)))].
    destruct D as [D _]. cbn. rewrite lookup_omap. rewrite (proj2 (D o it)); [done|auto].
Qed.

Lemma failed_false res t : failed res t = false <-> res !! t <> Some None.
Proof. unfold failed. destruct (res !! t) as [[?|]|]; split; congruence. Qed.
Lemma failed_true res t : failed res t = true <-> res !! t = Some None.
Proof. unfold failed. destruct (res !! t) as [[?|]|]; split; congruence. Qed.
Lemma known_cases t : known_type t = true -> t = TocInstances \/ t = TocIndoms \/ t = TocMetrics \/ t = TocValues \/ t = TocStrings.
Proof. unfold known_type. rewrite !orb_true_iff, !Z.eqb_eq. tauto. Qed.
Lemma no_fail_known data version tocs ss res : ginv data version tocs ss res ->
  failed res TocInstances = false -> failed res TocIndoms = false -> failed res TocMetrics = false -> failed res TocValues = false -> failed res TocStrings = false -> forall t, res !! t <> Some None.
Proof.
  intros I A1 A2 A3 A4 A5 t E. destruct (gi_some _ _ _ _ _ I _ _ E) as (s & S1 & S2 & S3 & S4).
  pose proof (gi_sects _ _ _ _ _ I) as GI. rewrite Forall_forall in GI. destruct (sect_done _ _ s (GI s S1) S2) as (K & _). rewrite S3 in K.
  rewrite failed_false in A1, A2, A3, A4, A5. apply known_cases in K as [->|[->|[->|[->| ->]]]]; done.
Qed.

(** The specification of a successful dump. *)
Record dump_spec (data : list byte) (h : header) (tocs : list toc) (d : dump) : Prop := {
  dsp_header : du_header d = h; dsp_tocs : du_tocs d = tocs;
  dsp_metrics : tmap data (hd_version h) tocs TocMetrics as_metric (du_metrics d);
  dsp_values : tmap data (hd_version h) tocs TocValues as_value (du_values d);
  dsp_instances : tmap data (hd_version h) tocs TocInstances as_instance (du_instances d);
  dsp_indoms : tmap data (hd_version h) tocs TocIndoms as_indom (du_indoms d);
  dsp_strings : tmap data (hd_version h) tocs TocStrings as_string (du_strings d) }.
Lemma dump_spec_unique data h tocs d d' : dump_spec data h tocs d -> dump_spec data h tocs d' -> d = d'.
Proof. intros [] []. destruct d, d'; cbn in *. f_equal; try congruence; eapply tmap_unique; eauto. Qed.

(** What a run that ended says about the input. *)
Lemma run_done data h tocs ss res : rtc (dstep data (hd_version h)) (dinit tocs) (DRun ss res) -> all_returned ss -> NoDup (map tc_type tocs) ->
  match dresult h tocs res with
  | DOk d => Forall (sect_ok data (hd_version h)) tocs /\ dump_spec data h tocs d
  | DErr => exists t o, t ∈ tocs /\ o ∈ sect_offs (hd_version h) t /\ rd data (hd_version h) t o = IErr
  | _ => False
  end.
Proof.
  intros H HR ND. pose proof (ginv_reach _ _ _ _ H) as I. cbn in I. pose proof (gi_sects _ _ _ _ _ I) as GI. rewrite Forall_forall in GI.
  unfold dresult. destruct (failed res TocInstances || _ || _ || _ || _) eqn:E.
  - assert (exists t, res !! t = Some None) as [t Ht] by (rewrite !orb_true_iff, !failed_true in E; destruct E as [[[[?|?]|?]|?]|?]; eauto).
    destruct (gi_some _ _ _ _ _ I _ _ Ht) as (s & S1 & S2 & S3 & S4). destruct (sect_done _ _ s (GI s S1) S2) as (_ & _ & D). rewrite S4 in D.
    destruct D as (o & O1 & O2). exists (s_toc s), o. split_and!; auto. rewrite <- (gi_tocs _ _ _ _ _ I). apply elem_of_list_fmap. eauto.
  - rewrite !orb_false_iff in E. destruct E as ((((E1 & E2) & E3) & E4) & E5).
    pose proof (no_fail_known _ _ _ _ _ I E1 E2 E3 E4 E5) as HN. split.
    + apply Forall_forall. intros t Ht. rewrite <- (gi_tocs _ _ _ _ _ I) in Ht. apply elem_of_list_fmap in Ht as (s & -> & S1).
      unfold all_returned in HR. rewrite Forall_forall in HR. pose proof (HR _ S1) as S2.
      destruct (sect_done _ _ s (GI s S1) S2) as (K1 & K2 & D). destruct (sres s) as [m|] eqn:Es.
      * destruct D as [_ D]. split_and!; auto.
      * pose proof (gi_last _ _ _ _ _ I s S1 S2 ND) as L. rewrite Es in L. by destruct (HN (tc_type (s_toc s))).
    + split; cbn; auto; eapply typed_tmap; eauto.
Qed.
