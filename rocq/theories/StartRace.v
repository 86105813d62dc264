(** Methods of metrics called while Start is writing the values:
    /repo/client.go:517-520, 541-544 and 602-617 against /repo/metrics.go:574-592,
    1001-1023.

    Start runs [m.update = c.writeValue(m.t, m.val, offset)] in one goroutine per value,
    without taking the metric's lock: it reads m.val, writes the bytes, then stores the
    closure in m.update. The model has these goroutines beside goroutines calling methods
    (Conc.v). Left out are the parts of writeValue that concern neither m.val, m.update
    nor the bytes of the value: taking the offset of a string's slot from its channel and
    writing the length and this offset into the value record. The rest of Start does not
    access these. *)
From Verif Require Import Base GoVal ByteWriter Indom Metrics Registry Prog Client OpRuns Locks Conc.

(** A goroutine of Start: not yet run, running [p] after having read [v], finished. *)
Inductive sstate := SIdle | SRun (v : goval) (p : prog) | SFin (v : goval).
(** [s_off]: where the value's bytes go. *)
Record sgo := mkSgo { s_key : vkey; s_off : Z; s_st : sstate }.
Definition to_state (g : sgo) (x : sstate) : sgo := mkSgo (s_key g) (s_off g) x.

(** The assignment to m.update (m.vals[i].update). *)
Definition install (s : mem) (wr : nat) (key : vkey) (off : Z) : option mem :=
  m ← q_metrics s !! key.1; c ← cell_at m key.2;
  Some (upd_metric s key.1 (put_cell m key.2 (mkCell (c_val c) (Some (mkClosure wr off))))).

(** One step; [update_prog] is the closure called by writeValue (Client.v). *)
Definition snext (wr : nat) (g : sgo) (s : mem) : option (sgo * mem) :=
  match s_st g with
  | SIdle =>
      m ← q_metrics s !! (s_key g).1; c ← cell_at m (s_key g).2;
      Some (to_state g (SRun (c_val c) (update_prog (s_off g) (c_val c) (PSetUpd (s_key g) (s_off g) PRet))), s)
  | SRun v (PWrite must off data k) =>
      x ← f_writers (q_files s) !! wr; buf ← f_inodes (q_files s) !! wr_inode x;
      match write_step (zlen buf) must off data k with
      | (None, p) => Some (to_state g (SRun v p), s)
      | (Some (LByte o b), p) =>
          Some (to_state g (SRun v p), mkMem (q_metrics s) (mkFiles (f_writers (q_files s)) (<[wr_inode x := do_store buf (o, b)]> (f_inodes (q_files s)))))
      | _ => None
      end
  | SRun v (PSetUpd key o _) => s' ← install s wr key o; Some (to_state g (SFin v), s')
  | _ => None
  end.

(** Goroutines calling methods, and those of Start. *)
Record race := mkRace { rc_m : mach (O := option nat) (S := mem) (C := mcall) (P := mprog) (R := outcome * option goval); rc_g : list sgo }.
Definition with_mem (m : mach (O := option nat) (S := mem) (C := mcall) (P := mprog) (R := outcome * option goval)) (s : mem) := mkMach s (mc_locks m) (mc_thr m).

Inductive race_step (hp : heap) (wr : nat) : race -> race -> Prop :=
| rc_call m m' gs : cstep hp m m' -> race_step hp wr (mkRace m gs) (mkRace m' gs)
| rc_start m gs j g g' s' : gs !! j = Some g -> snext wr g (mc_mem m) = Some (g', s') ->
    race_step hp wr (mkRace m gs) (mkRace (with_mem m s') (<[j := g']> gs)).

Definition race_start (s : mem) (css : list (list mcall)) (ks : list (vkey * Z)) : race :=
  mkRace (m_start s css) ((fun x => mkSgo x.1 x.2 SIdle) <$> ks).
Definition race_done (r : race) : Prop :=
  m_done (rc_m r) /\ forall j g, rc_g r !! j = Some g -> exists v, s_st g = SFin v.
