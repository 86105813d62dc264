(** The command mmvdump, /repo/mmvdump/cmd/mmvdump/main.go.
    Simplifications: only standard output is modelled (what the flag package and a panic print goes to
    standard error); the file is read at one moment. *)
From Verif Require Import Base Floats GoVal Mmvdump DumpSched DumpText.

(** How the process ends: main returns (status 0), the flag package ends it, or it crashes with a
    goroutine trace (a panic, or the runtime's report that all goroutines wait). *)
Inductive cend := CReturn | CUsage | CCrash.

(** flag.Parse when no flag is defined, main.go:13: the arguments left over, [None] if the flag package
    ends the process. One dash alone is an argument, two dashes alone end the flags, and every other
    word beginning with a dash is an error (or a call for help, which ends the process as well). *)
Definition dash : byte := x2d.
Definition parse_flags (args : list gostring) : option (list gostring) :=
  match args with
  | (a :: b :: t) :: rest =>
      if bool_decide (a = dash) then (if bool_decide (b = dash /\ t = []) then Some rest else None) else Some args
  | _ => Some args
  end.

(** main.go:26-34, after Dump has ended in [o]. *)
Definition after_dump (file : gostring) (o : dres) : list piece * cend :=
  match o with
  | DErr | DPanic | DHang => ([], CCrash)
  | DOk d =>
      let line := PB (str "File      = " ++ file ++ nl) in
      match Write d with
      | WOk out => (line :: out, CReturn)
      | WErr out | WPanic out => (line :: out, CCrash)
      end
  end.

(** main, main.go:12-35; [fs]: the contents of the files that can be read, [args]: the words after the
    command's name. The first argument names the file, the others are ignored. *)
Inductive cmd_run (fs : gostring -> option (list byte)) (args : list gostring) : list piece -> cend -> Prop :=
| cr_flags : parse_flags args = None -> cmd_run fs args [] CUsage
| cr_usage : parse_flags args = Some [] -> cmd_run fs args [PB (str "usage: mmvdump <file>" ++ nl)] CReturn
| cr_unreadable file rest : parse_flags args = Some (file :: rest) -> fs file = None -> cmd_run fs args [] CCrash
| cr_dump file rest data o : parse_flags args = Some (file :: rest) -> fs file = Some data -> dump_run data o ->
    cmd_run fs args (after_dump file o).1 (after_dump file o).2.
