(** A small language of goroutine programs, enough to transcribe
    /repo/client.go:212-617 statement by statement, and its interleaving semantics.

    Granularity: every byte store of ByteWriter.Write's loop
    (/repo/bytewriter/bytewriter.go:41-43) is one step, every channel operation, every
    [go] statement, every [wg.Done()] and every passing of [wg.Wait()] is one step.
    Memory is sequentially consistent. *)
From Verif Require Import Base GoVal ByteWriter.

(** The five offset channels of PCPClient, /repo/client.go:117-121; each is
    [make(chan int, 1)] when in use. *)
Inductive chan := CInstance | CIndom | CMetric | CValue | CString.
Global Instance chan_eq_dec : EqDecision chan.
Proof. solve_decision. Defined.

(** The [offset] field of a pcpInstance: (instance domain pointer, instance name). *)
Definition okey := (nat * gostring)%type.
(** The [update] field of a metric or of one of its instances. *)
Definition vkey := (nat * option gostring)%type.

Inductive prog :=
| PRet                                                       (* end of the goroutine *)
| PWrite (must : bool) (off : Z) (data : list byte) (k : prog) (* writer.MustWrite / writer.Write, error ignored *)
| PTake (c : chan) (k : Z -> prog)                           (* v := <-c *)
| PPut (c : chan) (v : Z) (k : prog)                         (* c <- v *)
| PSetOff (i : okey) (v : Z) (k : prog)                      (* i.offset = v *)
| PGetOff (i : okey) (k : Z -> prog)                         (* ... i.offset ... *)
| PSetUpd (key : vkey) (off : Z) (k : prog)                  (* m.update = closure at off *)
| PGo (child : prog) (k : prog)                              (* go func() { child; wg.Done() }() *)
| PWg (n : Z) (kids : list prog) (body k : prog).            (* wg.Add(n); body; wg.Wait(); k
                                                                with [kids] the goroutines running *)

(** Observable effect of a step; [None] is an internal step. *)
Inductive label :=
| LByte (off : Z) (b : byte)
| LTake (c : chan) (v : Z)
| LPut (c : chan) (v : Z)
| LSetOff (i : okey) (v : Z)
| LGetOff (i : okey) (v : Z)
| LUpd (key : vkey) (off : Z)
| LPanic.

(** One step of a Write call in a buffer of length [L]
    (/repo/bytewriter/bytewriter.go:34-55): bounds check of the whole remaining data
    first (equivalent at every iteration), then the next store. A negative offset is
    an index panic. *)
Definition write_step (L : Z) (must : bool) (off : Z) (data : list byte) (k : prog) : option label * prog :=
  if L <? off + zlen data then (if must then Some LPanic else None, k)
  else match data with
       | [] => (None, k)
       | b :: data => if off <? 0 then (Some LPanic, k)
                      else (Some (LByte off b), PWrite must (off + 1) data k)
       end.

(** Steps of a pool. In [PWg n kids body k] the body and every kid may move; a
    finished kid calls Done, which panics if the counter becomes negative; Wait
    passes when the counter is 0. If it passes while goroutines are left (counter too
    small) they keep running beside the continuation and their Done panics. *)
Inductive pstep (L : Z) : prog -> option label -> prog -> Prop :=
| ps_write m off data k l p : write_step L m off data k = (l, p) -> pstep L (PWrite m off data k) l p
| ps_take c k v : pstep L (PTake c k) (Some (LTake c v)) (k v)
| ps_put c v k : pstep L (PPut c v k) (Some (LPut c v)) k
| ps_setoff i v k : pstep L (PSetOff i v k) (Some (LSetOff i v)) k
| ps_getoff i v k : pstep L (PGetOff i k) (Some (LGetOff i v)) (k v)
| ps_setupd i o k : pstep L (PSetUpd i o k) (Some (LUpd i o)) k
| ps_go n kids c b k : pstep L (PWg n kids (PGo c b) k) None (PWg n (kids ++ [c]) b k)
| ps_body n kids b l b' k : pstep L b l b' -> pstep L (PWg n kids b k) l (PWg n kids b' k)
| ps_kid n l1 p l2 l p' b k : pstep L p l p' ->
    pstep L (PWg n (l1 ++ p :: l2) b k) l (PWg n (l1 ++ p' :: l2) b k)
| ps_done n l1 l2 b k :
    pstep L (PWg n (l1 ++ PRet :: l2) b k) (if n - 1 <? 0 then Some LPanic else None) (PWg (n - 1) (l1 ++ l2) b k)
| ps_wait k : pstep L (PWg 0 [] PRet k) None k
| ps_wait_early kids k : kids <> [] -> k <> PRet -> pstep L (PWg 0 kids PRet k) None (PWg 0 kids k PRet).

(** Channel contents: nil channel, empty or full one-slot buffer. *)
Inductive chst := ChNil | ChEmpty | ChFull (v : Z).

(** Shared state of the goroutines. *)
Record gst := mkGst {
  g_buf : buffer;
  g_ch : chan -> chst;
  g_off : gmap okey Z;
  g_upd : gmap vkey Z;
  g_panic : bool }.

Definition upd_ch (f : chan -> chst) (c : chan) (s : chst) : chan -> chst :=
  fun c' => if decide (c' = c) then s else f c'.

(** Effect of a label on the shared state; [None] = not possible now (the goroutine
    blocks, or the label does not describe what would be read). *)
Definition act (s : gst) (l : option label) : option gst :=
  match l with
  | None => Some s
  | Some (LByte o b) => Some (mkGst (do_store (g_buf s) (o, b)) (g_ch s) (g_off s) (g_upd s) (g_panic s))
  | Some (LTake c v) =>
      match g_ch s c with
      | ChFull v' => if v =? v' then Some (mkGst (g_buf s) (upd_ch (g_ch s) c ChEmpty) (g_off s) (g_upd s) (g_panic s))
                     else None
      | _ => None
      end
  | Some (LPut c v) =>
      match g_ch s c with
      | ChEmpty => Some (mkGst (g_buf s) (upd_ch (g_ch s) c (ChFull v)) (g_off s) (g_upd s) (g_panic s))
      | _ => None
      end
  | Some (LSetOff i v) => Some (mkGst (g_buf s) (g_ch s) (<[i := v]> (g_off s)) (g_upd s) (g_panic s))
  | Some (LGetOff i v) => if v =? default 0 (g_off s !! i) then Some s else None
  | Some (LUpd i o) => Some (mkGst (g_buf s) (g_ch s) (g_off s) (<[i := o]> (g_upd s)) (g_panic s))
  | Some LPanic => Some (mkGst (g_buf s) (g_ch s) (g_off s) (g_upd s) true)
  end.

(** One step of the machine; nothing moves after a panic (the process dies). *)
Definition gstep (L : Z) (x y : gst * prog) : Prop :=
  g_panic x.1 = false /\
  exists l, pstep L x.2 l y.2 /\ act x.1 l = Some y.1.

(** ** Executable successors (used to run the machine in examples) *)

(** All enabled steps. *)
Fixpoint succs (L : Z) (s : gst) (p : prog) {struct p} : list (option label * prog) :=
  match p with
  | PRet => []
  | PWrite m off data k => [write_step L m off data k]
  | PTake c k => match g_ch s c with ChFull v => [(Some (LTake c v), k v)] | _ => [] end
  | PPut c v k => match g_ch s c with ChEmpty => [(Some (LPut c v), k)] | _ => [] end
  | PSetOff i v k => [(Some (LSetOff i v), k)]
  | PGetOff i k => let v := default 0 (g_off s !! i) in [(Some (LGetOff i v), k v)]
  | PSetUpd i o k => [(Some (LUpd i o), k)]
  | PGo _ _ => []
  | PWg n kids b k =>
      (match b with
       | PGo c b => [(None, PWg n (kids ++ [c]) b k)]
       | PRet => match kids with
                 | [] => if n =? 0 then [(None, k)] else []
                 | _ => if n =? 0 then match k with PRet => [] | _ => [(None, PWg 0 kids k PRet)] end else []
                 end
       | _ => []
       end)
      ++ map (fun x => (x.1, PWg n kids x.2 k)) (succs L s b)
      ++ (fix go (l1 : list prog) (l2 : list prog) : list (option label * prog) :=
            match l2 with
            | [] => []
            | p :: l2 =>
                (match p with
                 | PRet => [(if n - 1 <? 0 then Some LPanic else None, PWg (n - 1) (l1 ++ l2) b k)]
                 | _ => []
                 end)
                ++ map (fun x => (x.1, PWg n (l1 ++ x.2 :: l2) b k)) (succs L s p)
                ++ go (l1 ++ [p]) l2
            end) [] kids
  end.

(** Run under a scheduler given as a list of choices (the n-th choice modulo the
    number of enabled steps). Stops early when nothing is enabled. *)
Fixpoint run (L : Z) (sched : list nat) (s : gst) (p : prog) : gst * prog :=
  match sched with
  | [] => (s, p)
  | n :: sched =>
      if g_panic s then (s, p)
      else match succs L s p with
           | [] => (s, p)
           | x :: xs =>
               let y := nth (Nat.modulo n (length (x :: xs))) (x :: xs) x in
               match act s y.1 with
               | Some s' => run L sched s' y.2
               | None => (s, p)
               end
           end
  end.

(** ** Loops *)

(** [for _, x := range l { go child(x) }] followed by [k]. *)
Fixpoint gos (l : list prog) (k : prog) : prog :=
  match l with [] => k | c :: l => PGo c (gos l k) end.
