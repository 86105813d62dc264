(** [succs] lists exactly the enabled steps, so [run] computes executions. *)
From Verif Require Import Base BaseFacts GoVal ByteWriter Prog Ileave ProgProofs.

Section exec.
  Context (L : Z) (s : gst).
  Definition kid_succs (n : Z) (b k : prog) : list prog -> list prog -> list (option label * prog) :=
    fix go (l1 : list prog) (l2 : list prog) : list (option label * prog) :=
      match l2 with
      | [] => []
      | p :: l2 =>
          (match p with
           | PRet => [(if n - 1 <? 0 then Some LPanic else None, PWg (n - 1) (l1 ++ l2) b k)]
           | _ => []
           end)
          ++ map (fun x => (x.1, PWg n (l1 ++ x.2 :: l2) b k)) (succs L s p)
          ++ go (l1 ++ [p]) l2
      end.

  Lemma kid_succs_in n b k y : forall l2 l1, y ∈ kid_succs n b k l1 l2 <->
    exists a p c, l2 = a ++ p :: c /\
      ((p = PRet /\ y = (if n - 1 <? 0 then Some LPanic else None, PWg (n - 1) (l1 ++ a ++ c) b k)) \/
       (exists x, x ∈ succs L s p /\ y = (x.1, PWg n (l1 ++ a ++ x.2 :: c) b k))).
  Proof.
    induction l2 as [|p l2 IH]; intros l1; cbn [kid_succs].
    { split; [intros H; by apply elem_of_nil in H|]. intros (a & p & c & E & _). by destruct a. }
    fold (kid_succs n b k). rewrite !elem_of_app, IH, elem_of_list_fmap. split.
    - intros [H|[(x & -> & Hx)|(a & q & c & -> & H)]].
      + destruct p; try (by apply elem_of_nil in H). apply elem_of_list_singleton in H as ->. exists [], PRet, l2. split; [reflexivity|]. left. auto.
      + exists [], p, l2. split; [reflexivity|]. right. eauto.
      + exists (p :: a), q, c. split; [reflexivity|]. destruct H as [[-> ->]|(x & Hx & ->)]; [left; split; [reflexivity|]|right; exists x; split; [exact Hx|]]; by rewrite <- app_assoc.
    - intros (a & q & c & E & H). destruct a as [|a0 a]; cbn in E; injection E as <- ->.
      + destruct H as [[-> ->]|(x & Hx & ->)]; [left; by left|right; left]. eauto.
      + right; right. exists a, q, c. split; [reflexivity|]. destruct H as [[-> ->]|(x & Hx & ->)]; [left; split; [reflexivity|]|right; exists x; split; [exact Hx|]]; by rewrite <- app_assoc.
  Qed.

  Lemma succs_wg n kids b k : succs L s (PWg n kids b k) =
      (match b with
       | PGo c b => [(None, PWg n (kids ++ [c]) b k)]
       | PRet => match kids with
                 | [] => if n =? 0 then [(None, k)] else []
                 | _ => if n =? 0 then match k with PRet => [] | _ => [(None, PWg 0 kids k PRet)] end else []
                 end
       | _ => []
       end)
      ++ map (fun x => (x.1, PWg n kids x.2 k)) (succs L s b) ++ kid_succs n b k [] kids.
  Proof. reflexivity. Qed.

  Lemma succs_step p : forall l p', (l, p') ∈ succs L s p -> pstep L p l p' /\ is_Some (act s l).
  Proof.
    induction p as [|m off data k IH|c k IH|c v k IH|i v k IH|i k IH|i v k IH|c k IHc IHk|n kids b k IHkids IHb IHk] using prog_ind'; intros l p' H.
    - by apply elem_of_nil in H.
    - cbn in H. apply elem_of_list_singleton in H. split; [by constructor|]. unfold write_step in H. destruct (L <? _), m; [| |destruct data; [|destruct (off <? 0)]..]; injection H as -> ->; cbn; eauto.
    - cbn in H. destruct (g_ch s c) eqn:E; try (by apply elem_of_nil in H). apply elem_of_list_singleton in H. injection H as -> ->. split; [constructor|]. cbn. rewrite E, Z.eqb_refl. eauto.
    - cbn in H. destruct (g_ch s c) eqn:E; try (by apply elem_of_nil in H). apply elem_of_list_singleton in H. injection H as -> ->. split; [constructor|]. cbn. rewrite E. eauto.
    - cbn in H. apply elem_of_list_singleton in H. injection H as -> ->. split; [constructor|]. cbn. eauto.
    - cbn in H. apply elem_of_list_singleton in H. injection H as -> ->. split; [constructor|]. cbn. rewrite Z.eqb_refl. eauto.
    - cbn in H. apply elem_of_list_singleton in H. injection H as -> ->. split; [constructor|]. cbn. eauto.
    - by apply elem_of_nil in H.
    - rewrite succs_wg in H. apply elem_of_app in H as [H|H]; [|apply elem_of_app in H as [H|H]].
      + destruct b; try (by apply elem_of_nil in H).
        * destruct kids as [|k0 kids].
          { destruct (n =? 0) eqn:E; [|by apply elem_of_nil in H]. assert (n = 0) as -> by lia. apply elem_of_list_singleton in H. injection H as -> ->. split; [constructor|]. cbn. eauto. }
          destruct (n =? 0) eqn:E; [|by apply elem_of_nil in H]. assert (n = 0) as -> by lia.
          destruct k; try (by apply elem_of_nil in H); apply elem_of_list_singleton in H; injection H as -> ->; (split; [constructor; discriminate|]; cbn; eauto).
        * apply elem_of_list_singleton in H. injection H as -> ->. split; [constructor|]. cbn. eauto.
      + apply elem_of_list_fmap in H as ([l0 q] & E & H). injection E as -> ->. apply IHb in H as [A B]. split; [by constructor|exact B].
      + apply kid_succs_in in H as (a & q & c & -> & H). cbn [app] in H. destruct H as [[-> H]|([l0 q'] & H & E)].
        * injection H as -> ->. split; [constructor|]. destruct (_ <? _); cbn; eauto.
        * injection E as -> ->. rewrite Forall_forall in IHkids. apply (IHkids q) in H as [A B]; [|set_solver]. split; [by constructor|exact B].
  Qed.

  Lemma step_succs p l p' : pstep L p l p' -> is_Some (act s l) -> (l, p') ∈ succs L s p.
  Proof.
    induction 1 as [m off data k l p E|c k v|c v k|i v k|i v k|i o k|n kids c b k|n kids b l b' k H IH|n l1 p l2 l p' b k H IH|n l1 l2 b k|k|kids k N1 N2]; intros A; cbn [act] in A.
    - cbn. rewrite E. by left.
    - cbn. destruct (g_ch s c) as [| |v'] eqn:Ec; try (by destruct A). destruct (v =? v') eqn:Ev; [|by destruct A]. assert (v = v') as -> by lia. by left.
    - cbn. destruct (g_ch s c) as [| |v'] eqn:Ec; try (by destruct A). by left.
    - by left.
    - cbn. destruct (v =? _) eqn:Ev; [|by destruct A]. assert (v = default 0 (g_off s !! i)) as -> by lia. by left.
    - by left.
    - rewrite succs_wg. by left.
    - rewrite succs_wg. apply elem_of_app. right. apply elem_of_app. left. apply elem_of_list_fmap. exists (l, b'). auto.
    - rewrite succs_wg. apply elem_of_app. right. apply elem_of_app. right. apply kid_succs_in. exists l1, p, l2. split; [reflexivity|]. right. exists (l, p'). auto.
    - rewrite succs_wg. apply elem_of_app. right. apply elem_of_app. right. apply kid_succs_in. exists l1, PRet, l2. split; [reflexivity|]. left. auto.
    - rewrite succs_wg. cbn. by left.
    - rewrite succs_wg. destruct kids as [|k0 kids]; [congruence|]. cbn. destruct k; try congruence; by left.
  Qed.
End exec.

Lemma run_steps L sched : forall s p, rtc (gstep L) (s, p) (run L sched s p).
Proof.
  induction sched as [|n sched IH]; intros s p; cbn [run].
  { reflexivity. }
  destruct (g_panic s) eqn:Ep; [reflexivity|].
  destruct (succs L s p) as [|x xs] eqn:Es; [reflexivity|]. set (y := nth _ _ _). destruct (act s y.1) as [s'|] eqn:Ea; [|reflexivity].
  eapply rtc_l; [|apply IH]. split; [exact Ep|]. exists y.1. split; [|exact Ea]. change (pstep L p y.1 y.2).
  assert (y ∈ succs L s p) as Hy by (rewrite Es; apply elem_of_list_In, nth_In, Nat.mod_upper_bound; discriminate).
  clearbody y. destruct y as [l q]. exact (proj1 (succs_step _ _ _ _ _ Hy)).
Qed.
