(** Slots handed out by a channel tile an interval; jobs in disjoint regions
    determine the final buffer. *)
From Verif Require Import Base BaseFacts Floats GoVal ByteWriter Mmvdump Prog Ileave ProgProofs Events BufFacts.

(** Contiguous, non-empty pieces from [b] to [e]. *)
Fixpoint chained (b : Z) (A : list (Z * Z)) (e : Z) : Prop :=
  match A with
  | [] => b = e
  | (v, n) :: A => v = b /\ 0 < n /\ chained (b + n) A e
  end.

Lemma chained_le b A e : chained b A e -> b <= e.
Proof. revert b; induction A as [|[v n] A IH]; cbn; intros b H; [lia|]. destruct H as (_ & ? & H). apply IH in H. lia. Qed.

Lemma chained_app b A1 A2 e : chained b (A1 ++ A2) e <-> exists m, chained b A1 m /\ chained m A2 e.
Proof.
  revert b; induction A1 as [|[v n] A1 IH]; cbn; intros b.
  - split; [eauto|]. intros (m & -> & H). exact H.
  - rewrite IH. naive_solver.
Qed.

Lemma chained_bounds b A e : chained b A e -> Forall (fun x => b <= x.1 /\ 0 < x.2 /\ x.1 + x.2 <= e) A.
Proof.
  revert b; induction A as [|[v n] A IH]; cbn; intros b H; constructor.
  - destruct H as (-> & ? & H). cbn. apply chained_le in H. lia.
  - destruct H as (-> & ? & H). eapply Forall_impl; [apply IH, H|]. cbn. intros [] ?. cbn in *. lia.
Qed.

Definition disj (x y : Z * Z) : Prop := x.1 + x.2 <= y.1 \/ y.1 + y.2 <= x.1.

Fixpoint pairwise {A} (R : A -> A -> Prop) (l : list A) : Prop :=
  match l with [] => True | x :: l => Forall (R x) l /\ pairwise R l end.

Lemma pairwise_perm {A} (R : A -> A -> Prop) l l' : (forall x y, R x y -> R y x) -> l ≡ₚ l' -> pairwise R l -> pairwise R l'.
Proof.
  intros Hs HP. induction HP; cbn; auto.
  - intros [H1 H2]. split; auto. by rewrite <- HP.
  - intros (H1 & H2 & H3). inversion H1; subst. split_and!; auto.
Qed.

Lemma pairwise_app {A} (R : A -> A -> Prop) l1 l2 :
  pairwise R (l1 ++ l2) <-> pairwise R l1 /\ pairwise R l2 /\ Forall (fun x => Forall (R x) l2) l1.
Proof.
  induction l1 as [|x l1 IH]; cbn.
  - split; [intros; split_and!; auto|tauto].
  - rewrite Forall_app, IH, Forall_cons. tauto.
Qed.

Lemma chained_pairwise b A e : chained b A e -> pairwise disj A.
Proof.
  revert b; induction A as [|[v n] A IH]; cbn; intros b H; [auto|]. destruct H as (-> & ? & H). split; [|eauto].
  eapply Forall_impl; [apply (chained_bounds _ _ _ H)|]. cbn. intros [] ?. unfold disj. cbn in *. lia.
Qed.

Lemma disj_sym x y : disj x y -> disj y x. Proof. unfold disj. lia. Qed.

(** Refining every piece into a chain. *)
Lemma chained_refine {B} (f : B -> Z * Z) (g : B -> list (Z * Z)) l b e :
  chained b (map f l) e -> Forall (fun x => chained (f x).1 (g x) ((f x).1 + (f x).2)) l ->
  chained b (concat (map g l)) e.
Proof.
  revert b; induction l as [|x l IH]; cbn [map concat]; intros b H HF; [exact H|].
  inversion HF as [|? ? Hx HF']; subst.
  apply chained_app. cbn in H. destruct (f x) as [v n] eqn:E. destruct H as (-> & Hn & H). cbn in Hx.
  exists (b + n). auto.
Qed.

Lemma sumZ_app l1 l2 : sumZ (l1 ++ l2) = sumZ l1 + sumZ l2.
Proof. induction l1; cbn [sumZ app]; [lia|]. rewrite IHl1. lia. Qed.
Global Instance sumZ_perm : Proper ((≡ₚ) ==> eq) sumZ.
Proof. intros l l' H. induction H; cbn [sumZ]; lia. Qed.

Definition ends (A : list (Z * Z)) : list Z := map (fun x => x.1 + x.2) A.

Lemma sumZ_ends A : sumZ (ends A) = sumZ (map fst A) + sumZ (map snd A).
Proof. unfold ends. induction A as [|[v n] A IH]; cbn [map sumZ fst snd] in *; [lia|]. rewrite IH. lia. Qed.

Lemma chain_end A b e : map fst A ++ [e] ≡ₚ b :: ends A -> e = b + sumZ (map snd A).
Proof.
  intros HP. assert (sumZ (map fst A ++ [e]) = sumZ (b :: ends A)) as H by (by rewrite HP).
  rewrite sumZ_app in H. cbn [sumZ] in H. rewrite sumZ_ends in H. lia.
Qed.

Lemma sumZ_pos (A : list (Z * Z)) : Forall (fun x => 0 < x.2) A -> 0 <= sumZ (map snd A) /\ (A <> [] -> 0 < sumZ (map snd A)).
Proof.
  induction 1 as [|[v n] A Hn HF [IH1 IH2]]; cbn [map sumZ fst snd] in *; [split; [lia|congruence]|]. split; [lia|]. intros _. lia.
Qed.

Lemma list_min (l : list Z) : l <> [] -> exists m, m ∈ l /\ Forall (fun x => m <= x) l.
Proof.
  induction l as [|x l IH]; [congruence|]. intros _. destruct l as [|y l].
  - exists x. split; [set_solver|]. constructor; [lia|constructor].
  - destruct IH as (m & Hm & HF); [congruence|]. destruct (decide (x <= m)).
    + exists x. split; [set_solver|]. constructor; [lia|]. eapply Forall_impl; [exact HF|]. cbn. intros; lia.
    + exists m. split; [set_solver|]. constructor; [lia|exact HF].
Qed.

Lemma chain_lemma A b e : Forall (fun x => 0 < x.2) A -> map fst A ++ [e] ≡ₚ b :: ends A ->
  exists A', A' ≡ₚ A /\ chained b A' e.
Proof.
  remember (length A) as n eqn:En. revert A b En. induction n as [|n IH]; intros A b En HF HP.
  - destruct A; [|discriminate]. cbn in HP. apply Permutation_singleton_inj in HP. exists []. split; auto. cbn. auto.
  - pose proof (chain_end _ _ _ HP) as He.
    destruct (sumZ_pos A HF) as [_ Hpos]. assert (A <> []) as HA by (intros ->; discriminate). specialize (Hpos HA).
    assert (b ∈ map fst A) as Hb.
    { destruct (list_min (map fst A)) as (m & Hm & Hmin).
      { destruct A; [congruence|discriminate]. }
      assert (m ∈ b :: ends A) as Hmb by (rewrite <- HP; set_solver).
      apply elem_of_cons in Hmb as [->|Hme]; [exact Hm|]. exfalso.
      unfold ends in Hme. apply elem_of_list_fmap in Hme as ([v k] & Hv & Hin). cbn in Hv.
      rewrite Forall_forall in HF. specialize (HF _ Hin). cbn in HF.
      rewrite Forall_forall in Hmin. assert (v ∈ map fst A) as Hv' by (apply elem_of_list_fmap; exists (v, k); auto).
      specialize (Hmin _ Hv'). lia. }
    apply elem_of_list_fmap in Hb as ([v k] & Hv & Hin). cbn in Hv. subst v.
    apply elem_of_list_split in Hin as (A1 & A2 & ->).
    destruct (IH (A1 ++ A2) (b + k)) as (A' & HA' & Hc).
    + rewrite app_length in *. cbn in En. lia.
    + apply Forall_app in HF as [H1 H2]. inversion H2; subst. apply Forall_app. auto.
    + unfold ends in *. rewrite !map_app in *. cbn in HP.
      rewrite <- !app_assoc in *. cbn in HP.
      rewrite <- !Permutation_middle in HP. apply Permutation_cons_inv in HP. rewrite <- HP. perm.
    + exists ((b, k) :: A'). split.
      * rewrite HA'. apply Permutation_middle.
      * cbn. split_and!; auto. apply Forall_app in HF as [_ H2]. inversion H2; auto.
Qed.

(** With zero-sized entries. *)
Lemma chain_lemma0 A b e : Forall (fun x => 0 <= x.2) A -> map fst A ++ [e] ≡ₚ b :: ends A ->
  exists A', A' ≡ₚ filter (fun x => 0 < x.2) A /\ chained b A' e.
Proof.
  intros HF HP. apply chain_lemma.
  - apply Forall_forall. intros x Hx. apply elem_of_list_filter in Hx. tauto.
  - assert (exists Z0, map fst A ≡ₚ map fst (filter (fun x => 0 < x.2) A) ++ Z0 /\ ends A ≡ₚ ends (filter (fun x => 0 < x.2) A) ++ Z0) as (Z0 & H1 & H2).
    { clear HP. induction HF as [|[v n] A Hn HF (Z0 & IH1 & IH2)]; [exists []; auto|]. cbn [snd] in Hn.
      rewrite filter_cons. case_decide as Hd; cbn [snd] in Hd.
      - exists Z0. cbn. rewrite IH1, IH2. auto.
      - exists (v :: Z0). cbn. rewrite IH1, IH2. assert (n = 0) as -> by lia. rewrite Z.add_0_r.
        split; apply Permutation_middle. }
    rewrite H1, H2 in HP. apply (Permutation_app_inv_r Z0). rewrite <- HP. perm.
Qed.

(** ** Channel histories *)

Definition ch_list (s : chst) : list Z := match s with ChFull v => [v] | _ => [] end.
Definition sel (c : chan) (x : chan * Z) : option Z := if decide (x.1 = c) then Some x.2 else None.

Lemma acts_chan c tr : forall s s', acts s tr = Some s' ->
  omap (sel c) (omap l_take tr) ++ ch_list (g_ch s' c) ≡ₚ ch_list (g_ch s c) ++ omap (sel c) (omap l_put tr).
Proof.
  induction tr as [|l tr IH]; intros s s' H; cbn [acts] in H.
  - simplify_eq. cbn. rewrite app_nil_r. reflexivity.
  - destruct (act s (Some l)) as [s1|] eqn:E; [|discriminate]. specialize (IH _ _ H).
    destruct l; cbn in E; simplify_eq; cbn in *; auto.
    + destruct (g_ch s c0) eqn:Ec; try discriminate. destruct (v =? v0) eqn:Ev; simplify_eq. cbn in IH. unfold upd_ch in IH.
      unfold sel at 1. cbn. destruct (decide (c0 = c)) as [->|Hne].
      * rewrite decide_True in IH by auto. rewrite Ec. cbn in *. replace v0 with v by lia. rewrite IH. reflexivity.
      * rewrite decide_False in IH by auto. auto.
    + destruct (g_ch s c0) eqn:Ec; try discriminate. simplify_eq. cbn in IH. unfold upd_ch in IH.
      unfold sel at 2. cbn. destruct (decide (c0 = c)) as [->|Hne].
      * rewrite decide_True in IH by auto. rewrite Ec. cbn in *. exact IH.
      * rewrite decide_False in IH by auto. auto.
    + destruct (v =? _); simplify_eq. auto.
Qed.

Lemma acts_chnil c tr : forall s s', acts s tr = Some s' -> g_ch s c = ChNil -> g_ch s' c = ChNil.
Proof.
  induction tr as [|l tr IH]; intros s s' H Hc; cbn [acts] in H; [by simplify_eq|].
  destruct (act s (Some l)) as [s1|] eqn:E; [|discriminate]. apply (IH _ _ H).
  destruct l; cbn in E; simplify_eq; cbn in *; auto.
  - destruct (g_ch s c0) eqn:Ec; try discriminate. destruct (v =? v0) eqn:Ev; simplify_eq. cbn. unfold upd_ch.
    destruct (decide (c = c0)); congruence.
  - destruct (g_ch s c0) eqn:Ec; try discriminate. simplify_eq. cbn. unfold upd_ch.
    destruct (decide (c = c0)); congruence.
  - destruct (v =? _); by simplify_eq.
Qed.

(** The buffer is the result of the stores. *)
Lemma acts_buf tr : forall s s', acts s tr = Some s' -> g_buf s' = do_stores (g_buf s) (omap l_byte tr).
Proof.
  induction tr as [|l tr IH]; intros s s' H; cbn [acts] in H; [by simplify_eq|].
  destruct (act s (Some l)) as [s1|] eqn:E; [|discriminate]. rewrite (IH _ _ H).
  destruct l; cbn in E; simplify_eq; cbn; auto.
  - repeat case_match; simplify_eq; auto.
  - repeat case_match; simplify_eq; auto.
  - destruct (v =? _); by simplify_eq.
Qed.

(** ** Jobs in disjoint regions *)

Definition job_reg (j : job) : Z * Z := (j.1.1.2, j.1.2).
Definition job_fits (j : job) : Prop := 0 <= j.1.2 /\ Forall (fun d => zlen d <= j.1.2) j.2.

(** Every region of [J] holds the contents its job says. *)
Definition holds_jobs (buf : list byte) (J : list job) : Prop :=
  Forall (fun j => sub j.1.1.2 j.1.2 buf = content j.1.2 j.2) J.

Lemma job_stores_range j : job_fits j -> Forall (fun s => j.1.1.2 <= s.1 < j.1.1.2 + j.1.2) (job_stores j).
Proof.
  intros [_ HF]. unfold job_stores. induction HF as [|d ds Hd HF IH]; cbn; [constructor|].
  apply Forall_app. split; [|exact IH]. eapply Forall_impl; [apply stores_of_range|]. cbn. intros s Hs. lia.
Qed.

Lemma jobs_final L J tr :
  Forall job_fits J -> pairwise disj (map job_reg J) ->
  Forall (fun j => 0 <= j.1.1.2 /\ j.1.1.2 + j.1.2 <= L) J ->
  ileave (map job_stores J) tr -> holds_jobs (do_stores (zeros L) tr) J.
Proof.
  intros Hfit Hdis Hin Hi. unfold holds_jobs. apply Forall_forall. intros j Hj.
  apply elem_of_list_split in Hj as (J1 & J2 & ->).
  rewrite map_app in Hi, Hdis. cbn in Hi, Hdis.
  apply Forall_app in Hfit as [Hf1 Hf2]. inversion Hf2 as [|? ? Hfj Hf2']; subst.
  apply Forall_app in Hin as [Hin1 Hin2]. inversion Hin2 as [|? ? Hinj _]; subst.
  apply pairwise_app in Hdis as (_ & [Hd2 _] & Hd1).
  assert (forall J, Forall job_fits J -> Forall (fun r => disj (job_reg j) r) (map job_reg J) ->
    Forall (Forall (fun s => ~ inreg j.1.1.2 j.1.2 s)) (map job_stores J)) as Hout.
  { intros J HF HD. rewrite Forall_map in HD |- *. apply Forall_forall. intros j' Hj'.
    rewrite Forall_forall in HF, HD. specialize (HF _ Hj'). specialize (HD _ Hj').
    eapply Forall_impl; [apply (job_stores_range _ HF)|]. unfold inreg, disj, job_reg in *. cbn in *. intros s Hs ?. lia. }
  rewrite (do_stores_region _ _ _ (job_stores j)).
  - unfold job_stores. rewrite sub_writes.
    + rewrite sub_zeros; [reflexivity|..]; unfold job_fits in *; lia.
    + lia.
    + apply Hfj.
    + rewrite zlen_zeros; unfold job_fits in *; lia.
  - lia.
  - eapply ileave_filter_one; [exact Hi| |].
    + apply Hout; auto. rewrite Forall_map. rewrite Forall_map in Hd1. eapply Forall_impl; [exact Hd1|].
      cbn. intros x Hx. inversion Hx; subst. apply disj_sym. auto.
    + apply Hout; auto.
Qed.
