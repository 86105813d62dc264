(** UTF-8 decoding as Go's regexp package sees a string: unicode/utf8
    DecodeRuneInString, used by the matcher behind /repo/registry.go:243-252 and
    /repo/config.go:20-52. A string becomes a list of tokens, a token being a code
    point and the bytes it was decoded from. A byte which does not begin a valid
    encoding is the code point U+FFFD on its own. *)
From Verif Require Import Base.

Definition tok : Type := Z * list byte.

(** The value and length of the encoding at the start of [l]. The tables of
    unicode/utf8: first bytes C2..DF begin two bytes, E0..EF three, F0..F4 four; the
    second byte has a narrower range after E0, ED, F0 and F4. *)
Definition cont (lo hi : Z) (b : byte) : bool := (lo <=? byteZ b) && (byteZ b <=? hi).

Definition decode1 (l : list byte) : option (Z * nat) :=
  match l with
  | [] => None
  | b0 :: l1 =>
      let p0 := byteZ b0 in
      if p0 <? 128 then Some (p0, 1%nat) else
      let bad := Some (65533, 1%nat) in
      if (p0 <? 194) || (244 <? p0) then bad else
      let lo := if p0 =? 224 then 160 else if p0 =? 240 then 144 else 128 in
      let hi := if p0 =? 237 then 159 else if p0 =? 244 then 143 else 191 in
      match l1 with
      | [] => bad
      | b1 :: l2 =>
          if p0 <? 224 then
            if cont lo hi b1 then Some ((p0 mod 32) * 64 + byteZ b1 mod 64, 2%nat) else bad
          else
          match l2 with
          | [] => bad
          | b2 :: l3 =>
              if p0 <? 240 then
                if cont lo hi b1 && cont 128 191 b2
                then Some ((p0 mod 16) * 4096 + (byteZ b1 mod 64) * 64 + byteZ b2 mod 64, 3%nat) else bad
              else
              match l3 with
              | [] => bad
              | b3 :: _ =>
                  if cont lo hi b1 && cont 128 191 b2 && cont 128 191 b3
                  then Some ((p0 mod 8) * 262144 + (byteZ b1 mod 64) * 4096 + (byteZ b2 mod 64) * 64 + byteZ b3 mod 64, 4%nat)
                  else bad
              end
          end
      end
  end.

Fixpoint utf8_fuel (n : nat) (l : list byte) : list tok :=
  match n with
  | O => []
  | S n => match decode1 l with
           | None => []
           | Some (r, k) => (r, take k l) :: utf8_fuel n (drop k l)
           end
  end.

Definition utf8 (l : list byte) : list tok := utf8_fuel (length l) l.

(** The bytes of a list of tokens. *)
Definition untok (l : list tok) : list byte := concat (map snd l).
