(** Goroutines calling methods that run under a reader/writer lock of their object, as
    all methods of metrics do (sync.Mutex and sync.RWMutex, Lock or RLock first, the
    unlock deferred). Generic in the objects, the shared memory and the method bodies. *)
From Verif Require Import Base.
From stdpp Require Import relations.
Local Open Scope Z_scope.

(** State of one lock: held for writing, or held for reading by a set of goroutines
    (free when the set is empty). sync.RWMutex keeps a count of readers; it also blocks
    new readers while a writer waits, which only removes behaviours. *)
Inductive lk := LkW (i : nat) | LkR (X : gset nat).

(** A goroutine: calls already returned with their results, the call being executed
    (inside its critical section), calls still to do. *)
Record thr (C P R : Type) := mkThr { t_done : list (C * R); t_cur : option (C * P); t_todo : list C }.
Arguments mkThr {_ _ _}. Arguments t_done {_ _ _}. Arguments t_cur {_ _ _}. Arguments t_todo {_ _ _}.

Section machine.
  Context {O S C P R : Type} `{EqDecision O}.
  (** object of a call, read lock or write lock, body of the method, one step of a
      body on the shared memory, result of a finished body *)
  Context (obj : C -> O) (rd : C -> bool) (enter : C -> P) (step : O -> P -> S -> P -> S -> Prop) (ret : P -> option R).

  Record mach := mkMach { mc_mem : S; mc_locks : O -> lk; mc_thr : list (thr C P R) }.

  Definition set_lock (f : O -> lk) (o : O) (l : lk) : O -> lk := fun o' => if decide (o' = o) then l else f o'.

  Inductive mstep : mach -> mach -> Prop :=
  | ms_lock s f ts i d c l : ts !! i = Some (mkThr d None (c :: l)) -> rd c = false -> f (obj c) = LkR ∅ ->
      mstep (mkMach s f ts) (mkMach s (set_lock f (obj c) (LkW i)) (<[i := mkThr d (Some (c, enter c)) l]> ts))
  | ms_rlock s f ts i d c l X : ts !! i = Some (mkThr d None (c :: l)) -> rd c = true -> f (obj c) = LkR X ->
      mstep (mkMach s f ts) (mkMach s (set_lock f (obj c) (LkR ({[i]} ∪ X))) (<[i := mkThr d (Some (c, enter c)) l]> ts))
  | ms_body s f ts i d c p l p' s' : ts !! i = Some (mkThr d (Some (c, p)) l) -> step (obj c) p s p' s' ->
      mstep (mkMach s f ts) (mkMach s' f (<[i := mkThr d (Some (c, p')) l]> ts))
  | ms_unlock s f ts i d c p l r : ts !! i = Some (mkThr d (Some (c, p)) l) -> ret p = Some r -> rd c = false ->
      mstep (mkMach s f ts) (mkMach s (set_lock f (obj c) (LkR ∅)) (<[i := mkThr (d ++ [(c, r)]) None l]> ts))
  | ms_runlock s f ts i d c p l r X : ts !! i = Some (mkThr d (Some (c, p)) l) -> ret p = Some r -> rd c = true -> f (obj c) = LkR X ->
      mstep (mkMach s f ts) (mkMach s (set_lock f (obj c) (LkR (X ∖ {[i]}))) (<[i := mkThr (d ++ [(c, r)]) None l]> ts)).

  (** All locks free, every goroutine about to make its calls. *)
  Definition m_start (s : S) (css : list (list C)) : mach := mkMach s (fun _ => LkR ∅) ((fun l => mkThr [] None l) <$> css).
  (** Every goroutine has returned from all its calls. *)
  Definition m_done (m : mach) : Prop := forall i t, mc_thr m !! i = Some t -> t_cur t = None /\ t_todo t = [].

  (** The same calls one after the other. *)
  Definition runs (c : C) (s : S) (r : R) (s' : S) : Prop :=
    exists p, rtc (fun x y => step (obj c) x.1 x.2 y.1 y.2) (enter c, s) (p, s') /\ ret p = Some r.
  Inductive serial : S -> list (nat * C * R) -> S -> Prop :=
  | serial_nil s : serial s [] s
  | serial_snoc s h s1 i c r s' : serial s h s1 -> runs c s1 r s' -> serial s (h ++ [(i, c, r)]) s'.
  (** The calls of goroutine [i] in a sequence, with their results. *)
  Definition calls_of (i : nat) (h : list (nat * C * R)) : list (C * R) :=
    omap (fun x => if decide (x.1.1 = i) then Some (x.1.2, x.2) else None) h.
End machine.
