(** Interleavings of several sequences. *)
From Verif Require Import Base BaseFacts.

Inductive ileave {A} : list (list A) -> list A -> Prop :=
| il_nil ls : Forall (fun l => l = []) ls -> ileave ls []
| il_cons l1 x t l2 tr : ileave (l1 ++ t :: l2) tr -> ileave (l1 ++ (x :: t) :: l2) (x :: tr).

Lemma ileave_nil_inv {A} (tr : list A) : ileave [] tr -> tr = [].
Proof. inversion 1; subst; auto. destruct l1; discriminate. Qed.

Lemma Forall_nil_concat {A} (ls : list (list A)) : Forall (fun l => l = []) ls -> concat ls = [].
Proof. induction 1; simpl; subst; auto. Qed.

Lemma ileave_perm_concat {A} (ls : list (list A)) tr : ileave ls tr -> tr ≡ₚ concat ls.
Proof.
  induction 1 as [ls H|l1 x t l2 tr H IH].
  - rewrite Forall_nil_concat; auto.
  - rewrite IH. rewrite !concat_app. cbn [concat].
    rewrite <- !app_comm_cons. apply Permutation_middle.
Qed.

(** Adding an empty sequence anywhere. *)
Lemma ileave_insert_nil {A} (l1 l2 : list (list A)) tr :
  ileave (l1 ++ l2) tr -> ileave (l1 ++ [] :: l2) tr.
Proof.
  intros H. remember (l1 ++ l2) as ls eqn:E. revert l1 l2 E.
  induction H as [ls H|m1 x t m2 tr H IH]; intros l1 l2 E.
  - subst. apply il_nil. apply Forall_app in H as [H1 H2]. apply Forall_app; split; auto.
  - apply app_eq_inv in E as [(k & -> & ->)|(k & -> & E)].
    + (* m1 = l1 ++ k, l2 = k ++ ... *)
      rewrite app_comm_cons, app_assoc. apply il_cons.
      rewrite <- app_assoc. apply (IH l1 (k ++ t :: m2)). rewrite app_assoc. reflexivity.
    + (* l1 = m1 ++ k, (x::t)::m2 = k ++ l2 *)
      destruct k as [|y k]; cbn in *; simplify_eq.
      * rewrite app_nil_r in *.
        replace (m1 ++ [] :: (x :: t) :: m2) with ((m1 ++ [[]]) ++ (x :: t) :: m2)
          by (rewrite <- app_assoc; reflexivity).
        apply il_cons. rewrite <- app_assoc. apply IH. reflexivity.
      * rewrite <- app_assoc. cbn. apply il_cons.
        specialize (IH (m1 ++ t :: k) l2). rewrite <- !app_assoc in IH. apply IH. reflexivity.
Qed.

Lemma ileave_remove_nil {A} (l1 l2 : list (list A)) tr :
  ileave (l1 ++ [] :: l2) tr -> ileave (l1 ++ l2) tr.
Proof.
  intros H. remember (l1 ++ [] :: l2) as ls eqn:E. revert l1 l2 E.
  induction H as [ls H|m1 x t m2 tr H IH]; intros l1 l2 E.
  - subst. apply il_nil. apply Forall_app in H as [H1 H2]. apply Forall_app; split; auto.
    inversion H2; auto.
  - apply app_eq_inv in E as [(k & -> & E)|(k & -> & E)].
    + destruct k as [|y k]; cbn in *; simplify_eq.
      rewrite app_assoc. apply il_cons. rewrite <- app_assoc. apply IH. rewrite <- app_assoc. reflexivity.
    + destruct k as [|y k]; cbn in *; simplify_eq.
      rewrite <- app_assoc. cbn. apply il_cons.
      replace (m1 ++ t :: k ++ l2) with ((m1 ++ t :: k) ++ l2) by (rewrite <- app_assoc; reflexivity).
      apply IH. rewrite <- app_assoc. reflexivity.
Qed.

Lemma ileave_singleton {A} (t : list A) : ileave [t] t.
Proof.
  induction t as [|x t IH]; [apply il_nil; auto|]. apply (il_cons [] x t []). exact IH.
Qed.

Lemma ileave_singleton_inv {A} (t tr : list A) : ileave [t] tr -> tr = t.
Proof.
  revert t; induction tr as [|x tr IH]; intros t H; inversion H as [ls Hl|l1 y u l2 tr' H' E1 E2]; subst.
  - inversion Hl; auto.
  - destruct l1 as [|? [|]]; simplify_eq/=. f_equal. apply IH. auto.
Qed.

Lemma ileave_perm {A} (ls ls' : list (list A)) tr : ls ≡ₚ ls' -> ileave ls tr -> ileave ls' tr.
Proof.
  intros HP H. revert ls' HP. induction H as [ls H|l1 x t l2 tr H IH]; intros ls' HP.
  - apply il_nil. rewrite <- HP. auto.
  - assert (Hin : (x :: t) ∈ ls') by (rewrite <- HP; set_solver).
    apply elem_of_list_split in Hin as (m1 & m2 & ->).
    apply il_cons. apply IH.
    rewrite <- !Permutation_middle in HP. apply Permutation_cons_inv in HP.
    rewrite <- !Permutation_middle, HP. reflexivity.
Qed.

(** Sequential composition is an interleaving. *)
Lemma ileave_app {A} (t1 t2 : list A) : ileave [t1; t2] (t1 ++ t2).
Proof.
  induction t1 as [|x t1 IH]; cbn.
  - apply (ileave_insert_nil [] [t2]). apply ileave_singleton.
  - apply (il_cons [] x t1 [t2]). exact IH.
Qed.

(** Two-way merges inside a bigger interleaving: replacing one sequence by an
    interleaving of others. *)
Lemma ileave_flatten {A} (l1 l2 : list (list A)) ts t tr :
  ileave (l1 ++ t :: l2) tr -> ileave ts t -> ileave (l1 ++ ts ++ l2) tr.
Proof.
  intros H. remember (l1 ++ t :: l2) as ls eqn:E. revert l1 t l2 ts E.
  induction H as [ls H|m1 x u m2 tr H IH]; intros l1 t l2 ts E Ht.
  - subst. apply Forall_app in H as [H1 H2]. inversion H2 as [|? ? -> H3]; subst.
    inversion Ht; subst. apply il_nil. rewrite !Forall_app. auto.
  - apply app_eq_inv in E as [(k & -> & E)|(k & -> & E)].
    + destruct k as [|y k]; cbn in *; simplify_eq.
      * rewrite app_nil_r in *.
        inversion Ht as [|n1 z w n2 tr' Ht']; subst.
        rewrite <- app_assoc, <- app_comm_cons, app_assoc. apply il_cons.
        rewrite <- app_assoc.
        replace (n1 ++ w :: n2 ++ m2) with ((n1 ++ w :: n2) ++ m2) by (rewrite <- app_assoc; reflexivity).
        eapply IH; eauto.
      * rewrite !app_assoc. apply il_cons.
        rewrite <- !app_assoc. eapply IH; eauto. rewrite <- app_assoc. reflexivity.
    + destruct k as [|y k]; cbn in *; simplify_eq.
      * (* the moving sequence is t itself *)
        rewrite app_nil_r in *.
        inversion Ht as [|n1 y w n2 tr' Ht']; subst.
        rewrite <- app_assoc, <- app_comm_cons, app_assoc. apply il_cons.
        rewrite <- app_assoc.
        replace (n1 ++ w :: n2 ++ l2) with ((n1 ++ w :: n2) ++ l2) by (rewrite <- app_assoc; reflexivity).
        eapply IH; eauto.
      * rewrite <- app_assoc. cbn. apply il_cons.
        specialize (IH (m1 ++ u :: k) t l2 ts). rewrite <- !app_assoc in IH. cbn in IH. apply IH; auto.
Qed.

(** Flattening everything. *)
Lemma ileave_flatten_all {A} (lss : list (list (list A))) ts tr :
  ileave ts tr -> Forall2 (fun ls t => ileave ls t) lss ts -> ileave (concat lss) tr.
Proof.
  intros H HF.
  enough (forall pre, ileave (pre ++ ts) tr -> ileave (pre ++ concat lss) tr) as X by (apply (X []); exact H).
  clear H. induction HF as [|ls t lss ts Hl HF IH]; intros pre H.
  - exact H.
  - cbn. rewrite app_assoc. apply IH. rewrite <- app_assoc. eapply ileave_flatten; eauto.
Qed.

(** Projections. *)
Lemma ileave_omap {A B} (f : A -> option B) (ls : list (list A)) (tr : list A) :
  ileave ls tr -> ileave (map (omap f) ls) (omap f tr).
Proof.
  induction 1 as [ls H|l1 x t l2 tr H IH].
  - cbn. apply il_nil. rewrite Forall_map. eapply Forall_impl; [exact H|]. intros ? ->. reflexivity.
  - rewrite map_app in *. cbn in *. destruct (f x).
    + apply il_cons. exact IH.
    + exact IH.
Qed.

Lemma ileave_filter {A} (P : A -> Prop) `{forall x, Decision (P x)} ls tr :
  ileave ls tr -> ileave (filter P <$> ls) (filter P tr).
Proof.
  induction 1 as [ls H'|l1 x t l2 tr H' IH].
  - rewrite filter_nil. apply il_nil. rewrite Forall_fmap. eapply Forall_impl; [exact H'|].
    intros ? ->. reflexivity.
  - rewrite fmap_app, fmap_cons in *. rewrite !filter_cons. case_decide.
    + apply il_cons. exact IH.
    + exact IH.
Qed.

Lemma ileave_all_nil {A} (ls ls' : list (list A)) tr :
  Forall (fun l => l = []) ls -> ileave (ls ++ ls') tr -> ileave ls' tr.
Proof.
  induction 1 as [|l ls -> HF IH]; intros H; [exact H|].
  apply IH. apply (ileave_remove_nil []). exact H.
Qed.

(** If only one sequence has elements satisfying P, the filtered interleaving is
    that sequence filtered. *)
Lemma ileave_filter_one {A} (P : A -> Prop) `{forall x, Decision (P x)} l1 t l2 tr :
  ileave (l1 ++ t :: l2) tr ->
  Forall (Forall (fun x => ~ P x)) l1 -> Forall (Forall (fun x => ~ P x)) l2 ->
  filter P tr = filter P t.
Proof.
  intros HI H1 H2. apply (ileave_filter P) in HI.
  rewrite fmap_app, fmap_cons in HI.
  assert (forall ls, Forall (Forall (fun x => ~ P x)) ls -> Forall (fun l => l = []) (filter P <$> ls)) as X.
  { intros ls Hls. rewrite Forall_fmap. eapply Forall_impl; [exact Hls|]. cbn.
    intros l Hl. induction Hl; [reflexivity|]. rewrite filter_cons_False; auto. }
  apply ileave_all_nil in HI; [|apply X; auto].
  assert (ileave [filter P t] (filter P tr)) as HI'.
  { eapply ileave_all_nil; [apply (X l2 H2)|].
    eapply ileave_perm; [|exact HI]. rewrite Permutation_app_comm. reflexivity. }
  apply ileave_singleton_inv in HI'. exact HI'.
Qed.

Lemma ileave_none {A} (P : A -> Prop) `{forall x, Decision (P x)} ls tr :
  ileave ls tr -> Forall (Forall (fun x => ~ P x)) ls -> filter P tr = [].
Proof.
  intros HI HF.
  destruct (filter P tr) as [|y l] eqn:E; [reflexivity|].
  assert (y ∈ filter P tr) as Hy by (rewrite E; left).
  apply elem_of_list_filter in Hy as [HP Hy].
  rewrite (ileave_perm_concat _ _ HI) in Hy.
  apply elem_of_list_In in Hy. apply in_concat in Hy as (l' & Hl' & Hy').
  rewrite Forall_forall in HF. apply elem_of_list_In in Hl', Hy'.
  specialize (HF _ Hl'). rewrite Forall_forall in HF. destruct (HF _ Hy' HP).
Qed.

