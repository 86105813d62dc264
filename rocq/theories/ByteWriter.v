(** /repo/bytewriter/bytewriter.go: an in-memory byte buffer with random access
    writes. Offsets are Go ints, here Z: [bw_write] adds without overflow, [bw_write64]
    below with the overflow of a 64-bit int. *)
From Verif Require Import Base Floats GoVal.

(** Buffer contents. *)
Notation buffer := (list byte) (only parsing).

(** Read access [w.buffer[i]]; [None] is Go's index panic. *)
Definition bget (buf : buffer) (i : Z) : option byte :=
  if i <? 0 then None else buf !! Z.to_nat i.

(** Store [w.buffer[i] = b]; [None] is Go's index panic
    (/repo/bytewriter/bytewriter.go:42). *)
Definition bset (buf : buffer) (i : Z) (b : byte) : option buffer :=
  if (i <? 0) || (zlen buf <=? i) then None else Some (<[Z.to_nat i := b]> buf).

(** Outcome of a write call: the returned position with or without an error, or a
    panic; the buffer as left behind. *)
Inductive wres :=
| WOk (buf : buffer) (pos : Z)
| WErr (buf : buffer) (pos : Z)
| WPanic (buf : buffer).

(** The store loop, /repo/bytewriter/bytewriter.go:41-43. *)
Fixpoint store_loop (buf : buffer) (i : Z) (data : list byte) : buffer * bool :=
  match data with
  | [] => (buf, true)
  | b :: data =>
      match bset buf i b with
      | Some buf' => store_loop buf' (i + 1) data
      | None => (buf, false)
      end
  end.

(** Write, /repo/bytewriter/bytewriter.go:34-46. *)
Definition bw_write (buf : buffer) (data : list byte) (off : Z) : wres :=
  if zlen buf <? off + zlen data then WErr buf (-1)
  else let '(buf', ok) := store_loop buf off data in
       if ok then WOk buf' (off + zlen data) else WPanic buf'.

(** MustWrite and the other Must functions turn an error into a panic,
    /repo/bytewriter/bytewriter.go:49-55,74-80,89-95. *)
Definition must (r : wres) : wres :=
  match r with WErr buf _ => WPanic buf | r => r end.

Definition bw_must_write (buf : buffer) (data : list byte) (off : Z) : wres :=
  must (bw_write buf data off).

(** Write with Go's 64-bit [offset+l], which wraps around
    (/repo/bytewriter/bytewriter.go:37). Used for C07 only: it equals [bw_write] whenever
    the sum does not overflow (WriterFacts.v, [bw_write64_eq]). *)
Definition bw_write64 (buf : buffer) (data : list byte) (off : Z) : wres :=
  if zlen buf <? to_signed 64 (off + zlen data) then WErr buf (-1)
  else let '(buf', ok) := store_loop buf off data in
       if ok then WOk buf' (off + zlen data) else WPanic buf'.

(** WriteString, /repo/bytewriter/bytewriter.go:83-86: returns [offset+len] even on error. *)
Definition bw_write_string (buf : buffer) (s : gostring) (off : Z) : wres :=
  match bw_write buf s off with
  | WOk buf' _ => WOk buf' (off + zlen s)
  | WErr buf' _ => WErr buf' (off + zlen s)
  | WPanic buf' => WPanic buf'
  end.

(** WriteVal, /repo/bytewriter/bytewriter.go:58-71; the typed functions of lines
    98-155 are WriteVal at one type. *)
Definition bw_write_val (buf : buffer) (v : goval) (off : Z) : wres :=
  match v with
  | VStr s => bw_write_string buf s off
  | v => match val_bytes v with
         | None => WErr buf 0
         | Some d => bw_write buf d off
         end
  end.

Definition bw_must_write_val (buf : buffer) (v : goval) (off : Z) : wres :=
  must (bw_write_val buf v off).

(** WriteInt32, WriteInt64, WriteUint32, WriteUint64, WriteFloat32, WriteFloat64 and the
    Must variants, /repo/bytewriter/bytewriter.go:98-155; a float is given by its bits. *)
Inductive wtype := WInt32 | WInt64 | WUint32 | WUint64 | WFloat32 | WFloat64.
Definition typed_val (t : wtype) (z : Z) : goval :=
  match t with
  | WInt32 => VInt32 z | WInt64 => VInt64 z | WUint32 => VUint32 z
  | WUint64 => VUint64 z | WFloat32 => VF32 z | WFloat64 => VF64 z
  end.
Definition bw_write_typed (t : wtype) (buf : buffer) (z off : Z) : wres := bw_write_val buf (typed_val t z) off.
Definition bw_must_write_typed (t : wtype) (buf : buffer) (z off : Z) : wres := bw_must_write_val buf (typed_val t z) off.

(** Buffer after a write call. *)
Definition wres_buf (r : wres) : buffer :=
  match r with WOk b _ | WErr b _ | WPanic b => b end.

(** ** Concurrent writers *)

(** One store of one byte at one position: the atomic step of a Write call. *)
Definition bstore := (Z * byte)%type.

(** The stores of a Write call in program order. *)
Fixpoint stores_of (off : Z) (data : list byte) : list bstore :=
  match data with
  | [] => []
  | b :: data => (off, b) :: stores_of (off + 1) data
  end.

(** Executing a sequence of stores on a buffer. *)
Definition do_store (buf : buffer) (s : bstore) : buffer :=
  match bset buf s.1 s.2 with Some b => b | None => buf end.
Definition do_stores (buf : buffer) (l : list bstore) : buffer := foldl do_store buf l.
