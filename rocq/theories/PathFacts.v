(** Where the MMV file lies. *)
From Verif Require Import Base BaseFacts Path.

(** [f] names an entry of the directory [dir]. *)
Definition entry_name (n : gostring) : Prop := n <> [] /\ n <> str "." /\ n <> str ".." /\ slash ∉ n.
Definition directly_in (dir f : gostring) : Prop := exists n, entry_name n /\ f = dir ++ str "/" ++ n.

Lemma split_on_nonempty c l : split_on c l <> [].
Proof. destruct l as [|x l]; cbn; [done|]. destruct (decide (x = c)); [done|]. by destruct (split_on c l). Qed.

Lemma split_on_app c a b : split_on c (a ++ c :: b) = split_on c a ++ split_on c b.
Proof.
  induction a as [|x a IH]; cbn; [by destruct (decide (c = c))|]. destruct (decide (x = c)); [by rewrite IH|].
  rewrite IH. pose proof (split_on_nonempty c a). by destruct (split_on c a).
Qed.

Lemma split_on_none c l : c ∉ l -> split_on c l = [l].
Proof.
  induction l as [|x l IH]; intros H; cbn; [done|]. apply not_elem_of_cons in H as [H1 H2].
  destruct (decide (x = c)) as [->|_]; [done|]. by rewrite IH.
Qed.

Lemma join_with_snoc sep l x : l <> [] -> join_with sep (l ++ [x]) = join_with sep l ++ sep ++ x.
Proof.
  induction l as [|a l IH]; [done|]. intros _. destruct l as [|b l]; [done|].
  change ((a :: b :: l) ++ [x]) with (a :: ((b :: l) ++ [x])).
  assert (forall y z, z <> [] -> join_with sep (y :: z) = y ++ sep ++ join_with sep z) as J by (intros y [|? ?] ?; done).
  rewrite (J a ((b :: l) ++ [x])) by done. rewrite IH by done. rewrite (J a (b :: l)) by done. by rewrite <- !app_assoc.
Qed.

Definition elems (p : gostring) : list gostring := foldl (clean_step (rooted_path p)) [] (split_path p).

Lemma clean_eq p : clean p = let out := (if rooted_path p then [slash] else []) ++ join_with [slash] (rev (elems p)) in if decide (out = []) then str "." else out.
Proof. done. Qed.

Lemma rooted_app p q : p <> [] -> rooted_path (p ++ q) = rooted_path p.
Proof. by destruct p. Qed.

Lemma elems_snoc p n : p <> [] -> slash ∉ n -> elems (p ++ slash :: n) = clean_step (rooted_path p) (elems p) n.
Proof.
  intros Hp Hn. unfold elems, split_path. rewrite rooted_app, split_on_app, (split_on_none slash n), foldl_app by done. done.
Qed.

Lemma step_entry b acc n : entry_name n -> clean_step b acc n = n :: acc.
Proof. intros (H1 & H2 & H3 & _). unfold clean_step. by destruct (decide (n = [])), (decide (n = str ".")), (decide (n = str "..")). Qed.

(** The elements kept are non-empty. *)
Lemma step_nonempty b acc e : Forall (fun x => x <> []) acc -> Forall (fun x => x <> []) (clean_step b acc e).
Proof.
  intros F. unfold clean_step. repeat case_match; auto.
  by apply Forall_cons in F as [_ F].
Qed.

Lemma elems_nonempty p : Forall (fun x => x <> []) (elems p).
Proof.
  unfold elems. assert (forall l acc, Forall (fun x => x <> []) acc -> Forall (fun x => x <> []) (foldl (clean_step (rooted_path p)) acc l)) as G; [|by apply G].
  induction l as [|e l IH]; intros acc F; cbn; [done|]. by apply IH, step_nonempty.
Qed.

Lemma join_nonempty sep l : l <> [] -> Forall (fun x : gostring => x <> []) l -> join_with sep l <> [].
Proof.
  intros N F. destruct F as [|x l Hx F]; [done|]. destruct l; cbn; [done|]. by destruct x.
Qed.

Lemma rev_nonnil {A} (l : list A) : l <> [] -> rev l <> [].
Proof. intros H E. apply H. apply (f_equal (@rev A)) in E. by rewrite rev_involutive in E. Qed.

Lemma clean_out p : elems p <> [] -> clean p = (if rooted_path p then [slash] else []) ++ join_with [slash] (rev (elems p)).
Proof.
  intros He. rewrite clean_eq. cbn zeta. destruct (decide _) as [E|E]; [|done]. exfalso.
  apply app_eq_nil in E as [_ E]. revert E. apply join_nonempty; [by apply rev_nonnil|]. apply Forall_rev, elems_nonempty.
Qed.

Lemma clean_snoc p n : p <> [] -> entry_name n -> elems p <> [] -> clean (p ++ slash :: n) = clean p ++ str "/" ++ n.
Proof.
  intros Hp Hn He. assert (elems (p ++ slash :: n) = n :: elems p) as E by (rewrite elems_snoc, step_entry; [done|done|done|apply Hn]).
  rewrite clean_out by (by rewrite E). rewrite E, rooted_app, (clean_out p He) by done. cbn [rev].
  rewrite join_with_snoc by (by apply rev_nonnil). by rewrite <- !app_assoc.
Qed.

Lemma entry_mmv : entry_name (str "mmv").
Proof.
  split_and!; [by (vm_compute; congruence)|by (vm_compute; congruence)|by (vm_compute; congruence)|].
  apply (bool_decide_eq_true_1 _). vm_compute. reflexivity.
Qed.

Lemma entry_tmp : entry_name (str "tmp").
Proof.
  split_and!; [by (vm_compute; congruence)|by (vm_compute; congruence)|by (vm_compute; congruence)|].
  apply (bool_decide_eq_true_1 _). vm_compute. reflexivity.
Qed.

(** The path before cleaning, and its directory. *)
Definition raw_dir (d : gostring) : gostring := if decide (d = []) then str "mmv" else d ++ slash :: str "mmv".

Lemma raw_dir_ok d : raw_dir d <> [] /\ exists e, elems (raw_dir d) = str "mmv" :: e /\ join [d; str "mmv"] = clean (raw_dir d) /\
  (d = [] -> e = []) /\ (d <> [] -> e = elems d /\ rooted_path (raw_dir d) = rooted_path d).
Proof.
  unfold raw_dir. destruct (decide (d = [])) as [->|Hd].
  - split; [by (vm_compute; congruence)|]. exists []. split_and!; [vm_compute; reflexivity|vm_compute; reflexivity|done|done].
  - split; [by destruct d|]. exists (elems d). split_and!; [|by cbn [join]; destruct (decide (d = []))|done|by rewrite rooted_app].
    rewrite elems_snoc, step_entry; [done|apply entry_mmv|done|apply entry_mmv].
Qed.

Lemma join3 d n : join [d; str "mmv"; n] = clean (raw_dir d ++ slash :: n).
Proof.
  unfold raw_dir. destruct (decide (d = [])) as [->|Hd]; [reflexivity|].
  cbn [join]. destruct (decide (d = [])); [done|]. cbn [join_with]. by rewrite <- app_assoc.
Qed.

Lemma join_entry d n : entry_name n -> join [d; str "mmv"; n] = join [d; str "mmv"] ++ str "/" ++ n.
Proof.
  intros Hn. destruct (raw_dir_ok d) as (N & e & E & -> & _). rewrite join3. apply clean_snoc; [done|done|by rewrite E].
Qed.

Lemma join_same d n : n = [] \/ n = str "." -> join [d; str "mmv"; n] = join [d; str "mmv"].
Proof.
  intros Hn. destruct (raw_dir_ok d) as (N & e & E & -> & _). rewrite join3, !clean_eq, rooted_app by done.
  rewrite elems_snoc; [|done|destruct Hn as [-> | ->]; [apply not_elem_of_nil|apply (bool_decide_eq_true_1 _); vm_compute; reflexivity]].
  assert (clean_step (rooted_path (raw_dir d)) (elems (raw_dir d)) n = elems (raw_dir d)) as -> by (destruct Hn as [-> | ->]; reflexivity). done.
Qed.

Lemma clean_length p : (length (clean p) <= length ((if rooted_path p then [slash] else []) ++ join_with [slash] (rev (elems p))) + 1)%nat.
Proof. rewrite clean_eq. cbn zeta. destruct (decide _); [cbn; lia|lia]. Qed.

Lemma join_up d : (length (join [d; str "mmv"; str ".."]) <= length (join [d; str "mmv"]))%nat.
Proof.
  destruct (raw_dir_ok d) as (N & e & E & -> & _). rewrite join3. rewrite (clean_out (raw_dir d)) by (by rewrite E).
  etrans; [apply clean_length|]. rewrite rooted_app by done. rewrite elems_snoc, E; [|done|apply (bool_decide_eq_true_1 _); vm_compute; reflexivity].
  assert (clean_step (rooted_path (raw_dir d)) (str "mmv" :: e) (str "..") = e) as -> by reflexivity.
  cbn [rev]. rewrite !app_length. destruct (decide (rev e = [])) as [->|He]; [cbn; lia|].
  rewrite join_with_snoc by done. rewrite !app_length. cbn. lia.
Qed.

Lemma not_in_short dir f : (length f <= length dir)%nat -> ~ directly_in dir f.
Proof. intros H (n & _ & ->). rewrite app_length in H. cbn in H. lia. Qed.

Lemma location_entry root config tmp n loc : mmvFileLocation root config tmp n = Some loc ->
  slash ∉ n /\ (directly_in (join [mmv_dir root config tmp; str "mmv"]) loc <-> n <> [] /\ n <> str "." /\ n <> str "..").
Proof.
  unfold mmvFileLocation. destruct (decide (slash ∈ n)) as [H|H]; [done|]. intros [= <-]. split; [done|].
  set (d := mmv_dir root config tmp). split.
  - intros D. split_and!; intros ->; revert D; apply not_in_short; [apply Nat.eq_le_incl, (f_equal (@length byte)), join_same; auto|apply Nat.eq_le_incl, (f_equal (@length byte)), join_same; auto|apply join_up].
  - intros (H1 & H2 & H3). exists n. split; [done|]. apply join_entry. done.
Qed.

(** ** Paths made of plain names *)
(** "/a/b" for the names a, b; "/" for none. *)
Definition abs_path (ns : list gostring) : gostring := match ns with [] => str "/" | _ => concat (map (fun n => slash :: n) ns) end.

Lemma split_abs ns : Forall entry_name ns -> split_path (concat (map (fun n => slash :: n) ns)) = [] :: ns.
Proof.
  unfold split_path. induction 1 as [|n ns (_ & _ & _ & Hn) _ IH]; [reflexivity|]. cbn [map concat app]. change (slash :: n ++ ?x) with ([] ++ slash :: (n ++ x)).
  rewrite split_on_app. change (split_on slash []) with [[] : gostring]. cbn [app]. f_equal.
  destruct ns as [|n' ns]; cbn [map concat] in *; [by rewrite app_nil_r, split_on_none|]. change ((slash :: n') ++ ?x) with (slash :: (n' ++ x)) in *.
  rewrite split_on_app, (split_on_none _ n) by done. change (slash :: n' ++ ?x) with ([] ++ slash :: (n' ++ x)) in IH. rewrite split_on_app in IH. change (split_on slash []) with [[] : gostring] in IH.
  cbn [app] in *. by injection IH as ->.
Qed.
Lemma split_abs_path ns : Forall entry_name ns -> exists e, split_path (abs_path ns) = e ++ ns /\ Forall (eq []) e.
Proof.
  intros F. destruct ns as [|n ns]; [exists [[]; []]; split; [reflexivity|by repeat constructor]|]. exists [[]]. unfold abs_path. rewrite split_abs by done. split; [done|by repeat constructor].
Qed.
Lemma steps_names b ns : Forall entry_name ns -> forall acc, foldl (clean_step b) acc ns = rev ns ++ acc.
Proof. induction 1 as [|n ns Hn _ IH]; intros acc; [done|]. cbn [foldl rev]. by rewrite step_entry, IH, <- app_assoc. Qed.
Lemma steps_empty b e : Forall (eq []) e -> forall acc, foldl (clean_step b) acc e = acc.
Proof. induction 1 as [|n e <- _ IH]; intros acc; [done|]. cbn [foldl]. by rewrite IH. Qed.
Lemma rooted_abs ns : rooted_path (abs_path ns) = true.
Proof. destruct ns; reflexivity. Qed.
Lemma abs_nonempty ns : abs_path ns <> [].
Proof. destruct ns; cbn; discriminate. Qed.
Lemma elems_abs ns : Forall entry_name ns -> elems (abs_path ns) = rev ns.
Proof. intros F. unfold elems. destruct (split_abs_path ns F) as (e & -> & He). rewrite foldl_app, (steps_empty _ e He), steps_names by done. apply app_nil_r. Qed.
Lemma elems_app p q : p <> [] -> elems (p ++ slash :: q) = foldl (clean_step (rooted_path p)) (elems p) (split_path q).
Proof. intros Hp. unfold elems, split_path. by rewrite rooted_app, split_on_app, foldl_app. Qed.
Lemma join_names ns : ns <> [] -> slash :: join_with [slash] ns = concat (map (fun n => slash :: n) ns).
Proof. induction ns as [|n ns IH]; [done|]. intros _. destruct ns as [|n' ns]; [cbn; by rewrite app_nil_r|]. cbn [map concat]. cbn [map concat] in IH. rewrite <- IH by done. reflexivity. Qed.
Lemma clean_abs p ns : rooted_path p = true -> elems p = rev ns -> clean p = abs_path ns.
Proof.
  intros Hr He. rewrite clean_eq, Hr, He, rev_involutive. cbn zeta. destruct (decide _) as [E|_]; [done|]. destruct ns as [|n ns]; [reflexivity|]. by apply (join_names (n :: ns)).
Qed.
Lemma join_abs2 rs ts : Forall entry_name rs -> Forall entry_name ts -> join [abs_path rs; abs_path ts] = abs_path (rs ++ ts).
Proof.
  intros F1 F2. cbn [join]. destruct (decide _) as [E|_]; [by apply abs_nonempty in E|]. cbn [join_with app]. apply clean_abs.
  - rewrite rooted_app by apply abs_nonempty. apply rooted_abs.
  - rewrite elems_app by apply abs_nonempty. rewrite elems_abs by done. destruct (split_abs_path ts F2) as (e & -> & He). rewrite foldl_app, (steps_empty _ e He), steps_names by done. by rewrite rev_app_distr.
Qed.
Lemma join_abs3 ts n : Forall entry_name ts -> entry_name n -> join [abs_path ts; str "mmv"; n] = abs_path (ts ++ [str "mmv"; n]).
Proof.
  intros F Hn. rewrite join3. unfold raw_dir. destruct (decide _) as [E|_]; [by apply abs_nonempty in E|]. pose proof (abs_nonempty ts). pose proof entry_mmv as M.
  assert (abs_path ts ++ slash :: str "mmv" <> []) by (by destruct (abs_path ts)).
  apply clean_abs.
  - rewrite !rooted_app by done. apply rooted_abs.
  - rewrite elems_snoc; [|done|apply Hn]. rewrite step_entry by done. rewrite elems_snoc; [|done|apply M]. rewrite step_entry, elems_abs by done. by rewrite rev_app_distr.
Qed.
