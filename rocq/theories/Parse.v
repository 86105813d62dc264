(** Names of metrics given as strings, /repo/registry.go:241-269. The Unicode
    classes \p{L} and \p{N} are a parameter [isLN] (tables of package unicode). *)
From Verif Require Import Base Utf8 Regexp.

Section Parse.
  Context (isLN : Z -> bool).

  Definition isId (c : Z) : bool := isLN c || (c =? 95).

  (** \s of RE2: tab, newline, form feed, carriage return, space. *)
  Definition isSpace (c : Z) : bool := (c =? 9) || (c =? 10) || (c =? 12) || (c =? 13) || (c =? 32).

  (** /repo/registry.go:241 *)
  Definition re_id : regexp := RPlus (RClass isId).

  (** /repo/registry.go:243, groups 6 to 9 of the whole pattern. *)
  Definition re_instances : regexp :=
    RSeq (RCap 6 re_id) (RCap 7 (RStar true (RCap 8 (RCat [RLit 44; ROpt (RClass isSpace); RCap 9 re_id])))).

  (** /repo/registry.go:244 *)
  Definition re_pattern : regexp :=
    RCat [ RBegin;
           RCap 1 (RSeq (RCap 2 re_id) (RStar false (RCap 3 (RSeq (RLit 46) re_id))));
           ROpt (RCap 4 (RCat [RLit 91; RCap 5 re_instances; RLit 93]));
           RCap 10 (RStar true (RCap 11 (RSeq (RLit 46) re_id)));
           REnd ].

  (** parseString, /repo/registry.go:249-269: metric, indom, instances (nil or a list). *)
  Definition parse_string (s : gostring) : option (gostring * gostring * option (list gostring)) :=
    match find_submatch re_pattern s with
    | None => None
    | Some m =>
        let indom := submatch m 1 in
        let metric := indom ++ submatch m 10 in
        let iarr := submatch m 5 in
        if decide (iarr = []) then Some (metric, [], None)
        else Some (metric, indom, Some (find_all_string re_id iarr))
    end.
End Parse.

(** ASCII letters and digits: the classes restricted to ASCII (for examples). *)
Definition asciiLN (c : Z) : bool :=
  ((48 <=? c) && (c <=? 57)) || ((65 <=? c) && (c <=? 90)) || ((97 <=? c) && (c <=? 122)).
