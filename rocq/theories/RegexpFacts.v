(** What the backtracking matcher accepts: a relational meaning of expressions, with
    soundness and completeness of the matcher, and the plain language of an
    expression without anchors. *)
From Verif Require Import Base Utf8 Regexp.
From stdpp Require Import relations.

Fixpoint den (r : regexp) (s s' : mst) : Prop :=
  match r with
  | RClass p => exists c l, ms_rest s = c :: l /\ p (fst c) = true /\ s' = advance s
  | RSeq a b => exists s1, den a s s1 /\ den b s1 s'
  | ROpt a => den a s s' \/ s' = s
  | RStar _ a => rtc (fun u v => den a u v /\ (length (ms_rest v) < length (ms_rest u))%nat) s s'
  | RCap n a => exists s1, den a s s1 /\
      s' = Mst (ms_pos s1) (ms_rest s1) (<[n := take (length (ms_rest s) - length (ms_rest s1))%nat (ms_rest s)]> (ms_caps s1))
  | RBegin => ms_pos s = 0%nat /\ s' = s
  | REnd => ms_rest s = [] /\ s' = s
  end.

Lemma orelse_some {A} (x y : option A) z : orelse x y = Some z -> x = Some z \/ y = Some z.
Proof. destruct x; cbn; auto. Qed.

Lemma rmatch_sound {A} r s (k : mst -> option A) x : rmatch r s k = Some x -> exists s', den r s s' /\ k s' = Some x.
Proof.
  revert s k x. induction r as [p|a IHa b IHb|a IHa|g a IHa|n a IHa| |]; intros s k x H; cbn [rmatch] in H.
  - destruct (ms_rest s) as [|c l] eqn:E; [done|]. destruct (p (fst c)) eqn:P; [|done]. exists (advance s). cbn. eauto 10.
  - apply IHa in H as (s1 & D1 & H). apply IHb in H as (s2 & D2 & H). exists s2. cbn. eauto.
  - apply orelse_some in H as [H|H]; [apply IHa in H as (s1 & D & H)|]; cbn; eauto.
  - cbn [den]. generalize dependent s. intros s. generalize (length (ms_rest s)). intros n. revert s x.
    induction n as [|n IH]; intros s x H; cbn [star] in H.
    { exists s. split; [apply rtc_refl|done]. }
    set (again := rmatch a s _) in H.
    assert (again = Some x \/ k s = Some x) as [H1|H1].
    { destruct g; apply orelse_some in H as [H|H]; auto. }
    + unfold again in H1. apply IHa in H1 as (s1 & D & H1). destruct (Nat.ltb_spec (length (ms_rest s1)) (length (ms_rest s))) as [L|L]; [|done].
      apply IH in H1 as (s2 & D2 & H2). exists s2. split; [|done]. eapply rtc_l; eauto.
    + exists s. split; [apply rtc_refl|done].
  - apply IHa in H as (s1 & D & H). cbn [den]. eauto 10.
  - destruct (Nat.eqb_spec (ms_pos s) 0) as [E|E]; [|done]. exists s. done.
  - destruct (ms_rest s) eqn:E; [|done]. exists s. done.
Qed.

Lemma orelse_ok {A} (x y : option A) : is_Some x \/ is_Some y -> is_Some (orelse x y).
Proof. destruct x; cbn; [eauto|]. intros [[? ?]|?]; done. Qed.

Lemma rmatch_complete {A} r s s' (k : mst -> option A) : den r s s' -> is_Some (k s') -> is_Some (rmatch r s k).
Proof.
  revert s s' k. induction r as [p|a IHa b IHb|a IHa|g a IHa|n a IHa| |]; intros s s' k D K; cbn [rmatch]; cbn [den] in D.
  - destruct D as (c & l & E & P & ->). by rewrite E, P.
  - destruct D as (s1 & D1 & D2). eapply IHa; [exact D1|]. eapply IHb; eauto.
  - apply orelse_ok. destruct D as [D| ->]; [left; eauto|by right].
  - assert (forall n, (length (ms_rest s) <= n)%nat -> is_Some (star (rmatch a) g n s k)) as G; [|by apply G].
    induction D as [s|s s1 s2 [D L] Ds IH]; intros n Hn.
    + destruct n as [|n]; cbn [star]; [done|]. destruct g; apply orelse_ok; auto.
    + destruct n as [|n]; [lia|]. cbn [star].
      assert (is_Some (rmatch a s (fun s' => if (length (ms_rest s') <? length (ms_rest s))%nat then star (rmatch a) g n s' k else None))) as H.
      { eapply IHa; [exact D|]. destruct (Nat.ltb_spec (length (ms_rest s1)) (length (ms_rest s))); [|lia]. apply IH; [done|lia]. }
      destruct g; apply orelse_ok; auto.
  - destruct D as (s1 & D & ->). eapply IHa; eauto.
  - destruct D as [E ->]. by rewrite E.
  - destruct D as [E ->]. by rewrite E.
Qed.

(** ** Consumed text and captures *)

Lemma den_eats r s s' : den r s s' -> exists w, ms_rest s = w ++ ms_rest s' /\ ms_pos s' = (ms_pos s + length w)%nat.
Proof.
  revert s s'. induction r as [p|a IHa b IHb|a IHa|g a IHa|n a IHa| |]; intros s s' D; cbn [den] in D.
  - destruct D as (c & l & E & P & ->). exists [c]. cbn. rewrite E. cbn. split; [done|lia].
  - destruct D as (s1 & D1 & D2). apply IHa in D1 as (w1 & E1 & P1). apply IHb in D2 as (w2 & E2 & P2).
    exists (w1 ++ w2). rewrite E1, E2, <- app_assoc, app_length. split; [done|lia].
  - destruct D as [D| ->]; [auto|]. exists []. cbn. split; [done|lia].
  - induction D as [s|s s1 s2 [D L] Ds IH].
    + exists []. cbn. split; [done|lia].
    + apply IHa in D as (w1 & E1 & P1). destruct IH as (w2 & E2 & P2).
      exists (w1 ++ w2). rewrite E1, E2, <- app_assoc, app_length. split; [done|lia].
  - destruct D as (s1 & D & ->). by apply IHa in D.
  - destruct D as [_ ->]. exists []. cbn. split; [done|lia].
  - destruct D as [_ ->]. exists []. cbn. split; [done|lia].
Qed.

Fixpoint groups (r : regexp) : list nat :=
  match r with
  | RClass _ | RBegin | REnd => []
  | RSeq a b => groups a ++ groups b
  | ROpt a | RStar _ a => groups a
  | RCap n a => n :: groups a
  end.

Lemma den_groups r s s' n : den r s s' -> n ∉ groups r -> ms_caps s' !! n = ms_caps s !! n.
Proof.
  revert s s'. induction r as [p|a IHa b IHb|a IHa|g a IHa|m a IHa| |]; intros s s' D N; cbn [den] in D; cbn [groups] in N.
  - by destruct D as (c & l & E & P & ->).
  - destruct D as (s1 & D1 & D2). apply not_elem_of_app in N as [N1 N2].
    rewrite (IHb _ _ D2 N2). by apply IHa.
  - destruct D as [D| ->]; [auto|done].
  - induction D as [s|s s1 s2 [D L] Ds IH]; [done|]. rewrite IH. by apply IHa.
  - destruct D as (s1 & D & ->). apply not_elem_of_cons in N as [N1 N2]. cbn. rewrite lookup_insert_ne by done. by apply IHa.
  - by destruct D as [_ ->].
  - by destruct D as [_ ->].
Qed.

(** ** Languages *)

Fixpoint noanchor (r : regexp) : bool :=
  match r with
  | RClass _ => true
  | RBegin | REnd => false
  | RSeq a b => noanchor a && noanchor b
  | ROpt a | RStar _ a | RCap _ a => noanchor a
  end.

Fixpoint lang (r : regexp) (w : list tok) : Prop :=
  match r with
  | RClass p => exists c, w = [c] /\ p (fst c) = true
  | RSeq a b => exists u v, w = u ++ v /\ lang a u /\ lang b v
  | ROpt a => lang a w \/ w = []
  | RStar _ a => exists ws, w = concat ws /\ Forall (fun u => lang a u /\ u <> []) ws
  | RCap _ a => lang a w
  | RBegin | REnd => w = []
  end.

Lemma den_lang r s s' : den r s s' -> exists w, lang r w /\ ms_rest s = w ++ ms_rest s' /\ ms_pos s' = (ms_pos s + length w)%nat.
Proof.
  revert s s'. induction r as [p|a IHa b IHb|a IHa|g a IHa|n a IHa| |]; intros s s' D; cbn [den] in D; cbn [lang].
  - destruct D as (c & l & E & P & ->). exists [c]. cbn. rewrite E. cbn. split_and!; [eauto|done|lia].
  - destruct D as (s1 & D1 & D2). apply IHa in D1 as (w1 & G1 & E1 & P1). apply IHb in D2 as (w2 & G2 & E2 & P2).
    exists (w1 ++ w2). rewrite E1, E2, <- app_assoc, app_length. split_and!; [eauto 10|done|lia].
  - destruct D as [D| ->].
    + apply IHa in D as (w & G & E). exists w. auto.
    + exists []. cbn. split_and!; [auto|done|lia].
  - induction D as [s|s s1 s2 [D L] Ds IH].
    + exists []. cbn. split_and!; [|done|lia]. exists []. done.
    + apply IHa in D as (w1 & G1 & E1 & P1). destruct IH as (w2 & (ws & -> & F) & E2 & P2).
      exists (w1 ++ concat ws). rewrite E1, E2, <- app_assoc, app_length. split_and!; [|done|lia].
      exists (w1 :: ws). split; [done|]. constructor; [|done]. split; [done|]. intros ->. rewrite E1 in L. cbn in L. lia.
  - destruct D as (s1 & D & ->). by apply IHa in D.
  - destruct D as [_ ->]. exists []. cbn. split_and!; [done|done|lia].
  - destruct D as [_ ->]. exists []. cbn. split_and!; [done|done|lia].
Qed.

Lemma lang_den r w l s : noanchor r = true -> lang r w -> ms_rest s = w ++ l -> exists s', den r s s' /\ ms_rest s' = l.
Proof.
  revert w l s. induction r as [p|a IHa b IHb|a IHa|g a IHa|n a IHa| |]; intros w l s N G E; cbn [lang] in G; cbn [noanchor] in N; cbn [den].
  - destruct G as (c & -> & P). exists (advance s). split; [|cbn; by rewrite E]. exists c, l. done.
  - destruct G as (u & v & -> & Gu & Gv). apply andb_true_iff in N as [N1 N2].
    destruct (IHa u (v ++ l) s N1 Gu) as (s1 & D1 & E1); [by rewrite E, app_assoc|].
    destruct (IHb v l s1 N2 Gv E1) as (s2 & D2 & E2). eauto.
  - destruct G as [G| ->]; [edestruct (IHa w l s) as (s1 & D1 & E1); eauto|]. exists s. auto.
  - destruct G as (ws & -> & F). revert s E. induction F as [|u ws [Gu Nu] F IH]; intros s E.
    { exists s. split; [apply rtc_refl|done]. }
    cbn [concat] in E. rewrite <- app_assoc in E. destruct (IHa u (concat ws ++ l) s N Gu E) as (s1 & D1 & E1).
    destruct (IH s1 E1) as (s2 & D2 & E2). exists s2. split; [|done]. eapply rtc_l; [|exact D2]. split; [done|].
    rewrite E, E1, (app_length u). destruct u as [|? u]; [done|]. cbn [length]. lia.
  - destruct (IHa w l s N G E) as (s1 & D1 & E1). eexists. split; [exists s1; split; [exact D1|reflexivity]|done].
  - done.
  - done.
Qed.

(** A capture holds the text its group read. *)
Lemma den_cap n a s s' : den (RCap n a) s s' -> exists w, lang a w /\ ms_rest s = w ++ ms_rest s' /\ ms_caps s' !! n = Some w.
Proof.
  cbn [den]. intros (s1 & D & ->). apply den_lang in D as (w & G & E & _). exists w. split_and!; [done|done|].
  cbn. rewrite lookup_insert, E, app_length. f_equal. apply take_app_alt. lia.
Qed.

(** ** Greedy repetition of a class *)

Fixpoint run (p : Z -> bool) (l : list tok) : nat :=
  match l with [] => 0%nat | c :: l => if p (fst c) then S (run p l) else 0%nat end.

Definition skip (n : nat) (s : mst) : mst := Mst (ms_pos s + n) (drop n (ms_rest s)) (ms_caps s).

Lemma run_le p l : (run p l <= length l)%nat.
Proof. induction l as [|c l IH]; cbn; [lia|]. destruct (p (fst c)); lia. Qed.

Lemma run_take p l : Forall (fun c => p (fst c) = true) (take (run p l) l).
Proof. induction l as [|c l IH]; cbn; [constructor|]. destruct (p (fst c)) eqn:E; cbn; constructor; auto. Qed.

Lemma run_stop p l c : drop (run p l) l !! 0%nat = Some c -> p (fst c) = false.
Proof. induction l as [|d l IH]; cbn; [done|]. destruct (p (fst d)) eqn:E; cbn; [done|]. intros [= ->]. done. Qed.

Lemma run_app p a b : Forall (fun c => p (fst c) = true) a -> run p (a ++ b) = (length a + run p b)%nat.
Proof. induction 1 as [|c a H F IH]; cbn; [done|]. by rewrite H, IH. Qed.

(** The repetition offers the longest run first, then shorter ones. *)
Fixpoint down {A} (n : nat) (k : nat -> option A) : option A :=
  match n with O => k 0%nat | S m => orelse (k (S m)) (down m k) end.

Lemma orelse_assoc {A} (a b c : option A) : orelse (orelse a b) c = orelse a (orelse b c).
Proof. by destruct a, b. Qed.

Lemma down_shift {A} n (k : nat -> option A) : down (S n) k = orelse (down n (fun i => k (S i))) (k 0%nat).
Proof.
  induction n as [|n IH]; [done|]. change (down (S (S n)) k) with (orelse (k (S (S n))) (down (S n) k)). rewrite IH.
  cbn [down]. by rewrite orelse_assoc.
Qed.

Lemma skip_0 s : skip 0 s = s.
Proof. destruct s as [q l m]. unfold skip. cbn [ms_pos ms_rest ms_caps drop]. f_equal. lia. Qed.

Lemma advance_skip n s : skip n (advance s) = skip (S n) s.
Proof. unfold skip, advance. destruct s as [q [|c l] m]; cbn [ms_pos ms_rest ms_caps tail drop]; f_equal; [lia|by rewrite drop_nil|lia]. Qed.

Lemma down_ext {A} n (k k' : nat -> option A) : (forall i, (i <= n)%nat -> k i = k' i) -> down n k = down n k'.
Proof. induction n as [|n IH]; intros H; cbn; [apply H; lia|]. rewrite H, IH; auto. Qed.

Lemma star_class {A} p s (k : mst -> option A) : rmatch (RStar true (RClass p)) s k = down (run p (ms_rest s)) (fun n => k (skip n s)).
Proof.
  change (rmatch (RStar true (RClass p)) s k) with (star (rmatch (RClass p)) true (length (ms_rest s)) s k).
  set (m := @rmatch A (RClass p)).
  assert (forall u k, m u k = match ms_rest u with [] => None | c :: _ => if p (fst c) then k (advance u) else None end) as Hm by done.
  clearbody m. assert (forall l s, ms_rest s = l -> star m true (length l) s k = down (run p l) (fun n => k (skip n s))) as G.
  { induction l as [|c l IH]; intros u E.
    - cbn. f_equal. by rewrite skip_0.
    - cbn [length star]. rewrite Hm, E. destruct (p (fst c)) eqn:P; cbn [run]; rewrite P.
      + assert (ms_rest (advance u) = l) as E1 by (cbn; by rewrite E). rewrite E1. cbn [length].
        destruct (Nat.ltb_spec (length l) (S (length l))); [|lia]. rewrite (IH _ E1), down_shift. f_equal.
        * apply down_ext. intros i Hi. by rewrite advance_skip.
        * by rewrite skip_0.
      + cbn [orelse down]. by rewrite skip_0. }
  by apply G.
Qed.

(** If only the longest run can be continued, it is the one chosen. *)
Lemma down_top {A} n (k : nat -> option A) : (forall i, (i < n)%nat -> k i = None) -> down n k = k n.
Proof.
  induction n as [|n IH]; intros H; [done|]. cbn. rewrite IH by (intros; apply H; lia). rewrite (H n) by lia.
  by destruct (k (S n)).
Qed.

Lemma down_first {A} n (k : nat -> option A) : is_Some (k n) -> down n k = k n.
Proof. intros [x E]. destruct n as [|n]; cbn; rewrite E; done. Qed.
