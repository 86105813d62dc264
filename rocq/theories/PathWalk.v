(** Following a path name by name, and what Clean and Join do to it. *)
From Verif Require Import Base BaseFacts Path PathFacts.

(** A directory is given by the names from the root to it. One name: "" and "." stay,
    ".." goes to the parent (the root is its own parent), others go down. *)
Definition go (cur : list gostring) (e : gostring) : list gostring :=
  if bool_decide (e = [] \/ e = str ".") then cur else if bool_decide (e = str "..") then removelast cur else cur ++ [e].
(** A path read from left to right; [e] is the part since the last slash. *)
Fixpoint walk (cur : list gostring) (e : gostring) (p : gostring) : list gostring :=
  match p with
  | [] => go cur e
  | c :: p => if bool_decide (c = slash) then walk (go cur e) [] p else walk cur (e ++ [c]) p
  end.
(** Where the path leads: from the root if it begins with a slash, otherwise from [cwd]. *)
Definition place (cwd : list gostring) (p : gostring) : list gostring :=
  walk (match p with c :: _ => if bool_decide (c = slash) then [] else cwd | [] => cwd end) [] p.

Lemma walk_split p : forall cur e, slash ∉ e -> walk cur e p = foldl go cur (match split_path p with [] => [e] | x :: r => (e ++ x) :: r end).
Proof.
  induction p as [|c p IH]; intros cur e He; cbn [walk split_path split_on].
  - by rewrite app_nil_r.
  - destruct (decide (c = slash)) as [->|N].
    + rewrite bool_decide_true by done. rewrite IH by apply not_elem_of_nil. rewrite app_nil_r. cbn [foldl]. pose proof (split_on_nonempty slash p). unfold split_path. by destruct (split_on slash p).
    + rewrite bool_decide_false by done. rewrite IH by (rewrite elem_of_app, elem_of_list_singleton; naive_solver). pose proof (split_on_nonempty slash p). unfold split_path.
      destruct (split_on slash p) as [|x r]; [done|]. by rewrite <- app_assoc.
Qed.
Definition base (cwd : list gostring) (p : gostring) : list gostring := if rooted_path p then [] else cwd.
Lemma walk_foldl cur p : walk cur [] p = foldl go cur (split_path p).
Proof. rewrite walk_split by apply not_elem_of_nil. pose proof (split_on_nonempty slash p). unfold split_path. by destruct (split_on slash p). Qed.
Lemma place_split cwd p : place cwd p = foldl go (base cwd p) (split_path p).
Proof. unfold place. rewrite walk_foldl. f_equal. unfold base, rooted_path. destruct p; [done|]. by destruct (bool_decide _). Qed.

(** ** Clean *)
Definition kept (x : gostring) : Prop := x <> [] /\ x <> str "." /\ slash ∉ x.
Lemma split_pieces c l : Forall (fun x => c ∉ x) (split_on c l).
Proof.
  induction l as [|d l IH]; cbn [split_on]; [constructor; [apply not_elem_of_nil|constructor]|]. destruct (decide (d = c)); [constructor; [apply not_elem_of_nil|done]|].
  destruct (split_on c l) as [|e r]; [constructor; [|constructor]; by apply not_elem_of_cons; split; [congruence|apply not_elem_of_nil]|].
  apply Forall_cons in IH as [H1 H2]. constructor; [|done]. apply not_elem_of_cons. split; [congruence|done].
Qed.
Lemma go_entry cur e : e <> [] -> e <> str "." -> e <> str ".." -> go cur e = cur ++ [e].
Proof. intros A B C. unfold go. rewrite bool_decide_false by tauto. by rewrite bool_decide_false. Qed.
Lemma dotdot_kept : str ".." <> [] /\ str ".." <> str "." /\ slash ∉ str "..".
Proof. split_and!; [vm_compute; congruence|vm_compute; congruence|]. apply (bool_decide_eq_true_1 _). vm_compute. reflexivity. Qed.
Lemma go_up cur : go cur (str "..") = removelast cur.
Proof. unfold go. destruct dotdot_kept as (A & B & _). rewrite bool_decide_false by tauto. by rewrite bool_decide_true. Qed.
Lemma go_stay cur e : e = [] \/ e = str "." -> go cur e = cur.
Proof. intros H. unfold go. by rewrite bool_decide_true. Qed.

Lemma step_walk b cur acc e : Forall kept acc -> slash ∉ e -> (b = true -> cur = []) ->
  Forall kept (clean_step b acc e) /\ foldl go cur (rev (clean_step b acc e)) = go (foldl go cur (rev acc)) e.
Proof.
  intros F He Hb. unfold clean_step. destruct (decide (e = [])) as [->|N1]; [rewrite go_stay by auto; done|]. destruct (decide (e = str ".")) as [->|N2]; [rewrite go_stay by auto; done|].
  destruct (decide (e = str "..")) as [->|N3].
  - rewrite go_up. destruct acc as [|a acc].
    + destruct b; [rewrite Hb by done; done|]. split; [constructor; [exact dotdot_kept|constructor]|]. cbn [rev app foldl]. apply go_up.
    + apply Forall_cons in F as [(A1 & A2 & A3) F]. destruct (decide (a = str "..")) as [->|N].
      * split; [repeat constructor; auto using dotdot_kept; apply dotdot_kept|]. change (rev (str ".." :: str ".." :: acc)) with (rev (str ".." :: acc) ++ [str ".."]). rewrite foldl_app. cbn [foldl]. apply go_up.
      * split; [done|]. cbn [rev]. rewrite foldl_app. cbn [foldl]. rewrite go_entry by done. by rewrite removelast_last.
  - split; [constructor; [done|done]|]. cbn [rev]. by rewrite foldl_app.
Qed.
Lemma steps_walk b cur es : Forall (fun x => slash ∉ x) es -> (b = true -> cur = []) -> forall acc, Forall kept acc ->
  Forall kept (foldl (clean_step b) acc es) /\ foldl go cur (rev (foldl (clean_step b) acc es)) = foldl go (foldl go cur (rev acc)) es.
Proof.
  intros F Hb. induction F as [|e es He F IH]; intros acc Ha; [done|]. cbn [foldl]. destruct (step_walk b cur acc e Ha He Hb) as [A B]. destruct (IH _ A) as [C D]. split; [done|]. by rewrite D, B.
Qed.
Lemma split_join es : es <> [] -> Forall (fun x => slash ∉ x) es -> split_path (join_with [slash] es) = es.
Proof.
  intros N F. induction F as [|e es He F IH]; [done|]. destruct es as [|e' es]; [by apply split_on_none|].
  change (join_with [slash] (e :: e' :: es)) with (e ++ slash :: join_with [slash] (e' :: es)). unfold split_path in *. rewrite split_on_app, IH by done. by rewrite (split_on_none slash e) by done.
Qed.
Lemma place_clean cwd p : place cwd (clean p) = place cwd p.
Proof.
  rewrite clean_eq, (place_split cwd p). destruct (steps_walk (rooted_path p) (base cwd p) (split_path p) (split_pieces _ _) ltac:(unfold base; by intros ->) [] ltac:(constructor)) as [K E]. fold (elems p) in K, E. cbn [rev foldl] in E. rewrite <- E.
  assert (Forall (fun x => slash ∉ x) (rev (elems p))) as Fs by (apply Forall_rev; eapply Forall_impl; [exact K|by intros x (_ & _ & ?)]).
  assert (Forall kept (rev (elems p))) as K' by by apply Forall_rev. clear E. generalize dependent (rev (elems p)). clear K. intros es Fs K. cbn zeta.
  destruct es as [|e es].
  - cbn [join_with app foldl]. rewrite app_nil_r. unfold base. destruct (rooted_path p) eqn:R.
    + rewrite decide_False by done. vm_compute. done.
    + rewrite decide_True by done. rewrite place_split. unfold base. change (rooted_path (str ".")) with false. change (split_path (str ".")) with [str "."]. cbn [foldl]. apply go_stay. auto.
  - assert (join_with [slash] (e :: es) <> []) as NJ by (apply join_nonempty; [done|eapply Forall_impl; [exact K|by intros x (? & _)]]).
    assert (rooted_path (join_with [slash] (e :: es)) = false) as RJ.
    { apply Forall_cons in K as [(A1 & _ & A3) _]. destruct e as [|c e]; [done|]. apply not_elem_of_cons in A3 as [A3 _]. destruct es; cbn; by apply bool_decide_false. }
    pose proof (split_join (e :: es) ltac:(done) Fs) as SJ. set (j := join_with [slash] (e :: es)) in *. unfold base at 1. destruct (rooted_path p) eqn:R; cbn [app].
    + rewrite decide_False by done. rewrite place_split. unfold base. change (rooted_path (slash :: j)) with true. change (split_path (slash :: j)) with ([] :: split_path j). rewrite SJ. cbn [foldl]. by rewrite (go_stay [] []) by auto.
    + rewrite decide_False by done. rewrite place_split. unfold base. by rewrite RJ, SJ.
Qed.
Lemma place_slash cwd a b : a <> [] -> place cwd (a ++ slash :: b) = walk (place cwd a) [] b.
Proof. intros N. rewrite !place_split, walk_foldl. unfold base, split_path. rewrite rooted_app, split_on_app, foldl_app by done. done. Qed.
Lemma place_join2 cwd a b : place cwd (join [a; b]) = if bool_decide (a = []) then place cwd b else walk (place cwd a) [] b.
Proof.
  cbn [join]. destruct (decide (a = [])) as [->|N].
  - rewrite bool_decide_true by done. destruct (decide (b = [])) as [->|N]; [done|]. apply place_clean.
  - rewrite bool_decide_false by done. rewrite place_clean. cbn [join_with]. by apply place_slash.
Qed.
Lemma place_location cwd d n : slash ∉ n -> place cwd (join [d; str "mmv"; n]) = go (place cwd d ++ [str "mmv"]) n.
Proof.
  intros Hn. rewrite join3, place_clean, place_slash by apply raw_dir_ok. rewrite walk_foldl. unfold split_path. rewrite split_on_none by done. cbn [foldl]. f_equal.
  assert (forall c, go c (str "mmv") = c ++ [str "mmv"]) as G by (intros c; apply go_entry; apply entry_mmv).
  unfold raw_dir. destruct (decide (d = [])) as [->|N].
  - rewrite !place_split. unfold base, split_path. rewrite (split_on_none slash (str "mmv")) by apply entry_mmv. change (rooted_path (str "mmv")) with false. cbn [foldl split_on rooted_path]. rewrite G. by rewrite (go_stay cwd []) by auto.
  - rewrite place_slash by done. rewrite walk_foldl. unfold split_path. rewrite (split_on_none slash (str "mmv")) by apply entry_mmv. cbn [foldl]. apply G.
Qed.
