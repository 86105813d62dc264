(** The part of Go's regexp package (leftmost-first matching, as Perl) that
    /repo/registry.go:241-252 and /repo/config.go:20 use: character classes,
    concatenation, greedy and lazy repetition, optional parts, capture groups, \A
    and \z. The package is not part of the repository; this is the semantics it
    documents, realised by a backtracking matcher. *)
From Verif Require Import Base Utf8.

Inductive regexp :=
| RClass (p : Z -> bool)            (* one code point of a class *)
| RSeq (a b : regexp)
| ROpt (a : regexp)                 (* a?, greedy *)
| RStar (greedy : bool) (a : regexp) (* a* or a*? *)
| RCap (n : nat) (a : regexp)       (* group number n *)
| RBegin                            (* \A *)
| REnd.                             (* \z *)

Definition RPlus (a : regexp) : regexp := RSeq a (RStar true a).
Fixpoint RCat (l : list regexp) : regexp :=
  match l with [] => ROpt REnd | [a] => a | a :: l => RSeq a (RCat l) end.
Definition RLit (c : Z) : regexp := RClass (Z.eqb c).

(** A matcher state: tokens before the current position (a count), tokens still to
    be read, and the text of the groups closed so far. *)
Record mst := Mst { ms_pos : nat; ms_rest : list tok; ms_caps : gmap nat (list tok) }.

Definition advance (s : mst) : mst := Mst (S (ms_pos s)) (tail (ms_rest s)) (ms_caps s).

Section Matcher.
  Context {A : Type}.

  Definition orelse (x y : option A) : option A := match x with Some _ => x | None => y end.

  (** Repetition: an iteration that reads nothing ends the loop. *)
  Fixpoint star (m : mst -> (mst -> option A) -> option A) (g : bool) (fuel : nat) (s : mst) (k : mst -> option A) : option A :=
    match fuel with
    | O => k s
    | S n =>
        let again := m s (fun s' => if (length (ms_rest s') <? length (ms_rest s))%nat then star m g n s' k else None) in
        if g then orelse again (k s) else orelse (k s) again
    end.

  (** [rmatch r s k]: the first way, in order of preference, to match [r] from [s]
      after which [k] succeeds. *)
  Fixpoint rmatch (r : regexp) (s : mst) (k : mst -> option A) : option A :=
    match r with
    | RClass p => match ms_rest s with
                  | [] => None
                  | c :: _ => if p (fst c) then k (advance s) else None
                  end
    | RSeq a b => rmatch a s (fun s' => rmatch b s' k)
    | ROpt a => orelse (rmatch a s k) (k s)
    | RStar g a => star (rmatch a) g (length (ms_rest s)) s k
    | RCap n a => rmatch a s (fun s' =>
        k (Mst (ms_pos s') (ms_rest s')
               (<[n := take (length (ms_rest s) - length (ms_rest s'))%nat (ms_rest s)]> (ms_caps s'))))
    | RBegin => if (ms_pos s =? 0)%nat then k s else None
    | REnd => match ms_rest s with [] => k s | _ => None end
    end.
End Matcher.

(** The leftmost match: start positions are tried from left to right. The result is
    the start position and the state after the match. *)
Fixpoint rfind (r : regexp) (pos : nat) (l : list tok) : option (nat * mst) :=
  match rmatch r (Mst pos l ∅) Some with
  | Some s => Some (pos, s)
  | None => match l with [] => None | _ :: l => rfind r (S pos) l end
  end.

(** FindStringSubmatch for groups 1.. (a group that took no part is the empty string). *)
Definition submatch (s : mst) (n : nat) : gostring :=
  match ms_caps s !! n with Some l => untok l | None => [] end.

Definition find_submatch (r : regexp) (b : gostring) : option mst :=
  match rfind r 0 (utf8 b) with Some (_, s) => Some s | None => None end.

(** FindAllString(s, -1) for an expression that matches no empty text: successive
    leftmost matches. *)
Fixpoint find_all (fuel : nat) (r : regexp) (l : list tok) : list gostring :=
  match fuel with
  | O => []
  | S n =>
      match rfind r 0 l with
      | None => []
      | Some (i, s) =>
          untok (take (ms_pos s - i)%nat (drop i l)) :: find_all n r (ms_rest s)
      end
  end.

Definition find_all_string (r : regexp) (b : gostring) : list gostring :=
  let l := utf8 b in find_all (length l) r l.
