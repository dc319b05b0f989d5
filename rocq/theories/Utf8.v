(** * Utf8: Go's [for _, r := range s] and [bytes.Buffer.WriteRune].

    These are Go language / standard library semantics used by
    /repo/token.go:56-69, /repo/filters/ascii/fold.go:10-13,
    /repo/filters/twitter/filter.go:18-62, /repo/filters/synonyms/trie/trie.go:69,101.
    Not code of /repo, but every rune-level property depends on them, so they are
    modelled exactly (Go spec "For range", unicode/utf8). *)

From Verif Require Import Base.
Local Open Scope N_scope.

Definition RuneError : N := 65533. (* U+FFFD *)

Definition in_range (lo hi x : N) : bool := (lo <=? x) && (x <=? hi).
(** continuation byte 80..BF *)
Definition cont (x : N) : bool := in_range 128 191 x.

(** First-byte dependent bounds on the second byte of 3- and 4-byte sequences
    (unicode/utf8 [acceptRanges]). *)
Definition lo3 (b1 : N) : N := if b1 =? 224 then 160 else 128.
Definition hi3 (b1 : N) : N := if b1 =? 237 then 159 else 191.
Definition lo4 (b1 : N) : N := if b1 =? 240 then 144 else 128.
Definition hi4 (b1 : N) : N := if b1 =? 244 then 143 else 191.

Definition rune2 (b1 b2 : N) : N := (b1 - 192) * 64 + (b2 - 128).
Definition rune3 (b1 b2 b3 : N) : N := (b1 - 224) * 4096 + (b2 - 128) * 64 + (b3 - 128).
Definition rune4 (b1 b2 b3 b4 : N) : N :=
  (b1 - 240) * 262144 + (b2 - 128) * 4096 + (b3 - 128) * 64 + (b4 - 128).

(** The runes visited by [for _, r := range s]: each invalid byte yields U+FFFD and
    advances by one byte. *)
Fixpoint runes (s : string) : list N :=
  match s with
  | EmptyString => []
  | String c1 s1 =>
    let b1 := byte_of c1 in
    if b1 <? 128 then b1 :: runes s1
    else if in_range 194 223 b1 then
      match s1 with
      | String c2 s2 =>
        if cont (byte_of c2) then rune2 b1 (byte_of c2) :: runes s2
        else RuneError :: runes s1
      | EmptyString => RuneError :: runes s1
      end
    else if in_range 224 239 b1 then
      match s1 with
      | String c2 (String c3 s3) =>
        if in_range (lo3 b1) (hi3 b1) (byte_of c2) && cont (byte_of c3)
        then rune3 b1 (byte_of c2) (byte_of c3) :: runes s3
        else RuneError :: runes s1
      | _ => RuneError :: runes s1
      end
    else if in_range 240 244 b1 then
      match s1 with
      | String c2 (String c3 (String c4 s4)) =>
        if in_range (lo4 b1) (hi4 b1) (byte_of c2) && cont (byte_of c3) && cont (byte_of c4)
        then rune4 b1 (byte_of c2) (byte_of c3) (byte_of c4) :: runes s4
        else RuneError :: runes s1
      | _ => RuneError :: runes s1
      end
    else RuneError :: runes s1
  end.

(** Unicode scalar values: what [WriteRune] encodes as itself. *)
Definition valid_rune (r : N) : bool :=
  (r <=? 55295) || in_range 57344 1114111 r.

(** Encoding of one rune ([utf8.EncodeRune], [bytes.Buffer.WriteRune]): an invalid rune is
    written as U+FFFD. *)
Definition enc_raw (r : N) : string :=
  if r <? 128 then String (chr r) EmptyString
  else if r <? 2048 then
    String (chr (192 + r / 64)) (String (chr (128 + r mod 64)) EmptyString)
  else if r <? 65536 then
    String (chr (224 + r / 4096)) (String (chr (128 + (r / 64) mod 64))
      (String (chr (128 + r mod 64)) EmptyString))
  else
    String (chr (240 + r / 262144)) (String (chr (128 + (r / 4096) mod 64))
      (String (chr (128 + (r / 64) mod 64)) (String (chr (128 + r mod 64)) EmptyString))).

Definition encode_rune (r : N) : string :=
  if valid_rune r then enc_raw r else enc_raw RuneError.

Fixpoint encode (l : list N) : string :=
  match l with
  | [] => EmptyString
  | r :: l' => (encode_rune r ++ encode l')%string
  end.

(** [utf8.ValidString]. *)
Fixpoint valid_utf8 (s : string) : bool :=
  match s with
  | EmptyString => true
  | String c1 s1 =>
    let b1 := byte_of c1 in
    if b1 <? 128 then valid_utf8 s1
    else if in_range 194 223 b1 then
      match s1 with
      | String c2 s2 => cont (byte_of c2) && valid_utf8 s2
      | EmptyString => false
      end
    else if in_range 224 239 b1 then
      match s1 with
      | String c2 (String c3 s3) =>
        in_range (lo3 b1) (hi3 b1) (byte_of c2) && cont (byte_of c3) && valid_utf8 s3
      | _ => false
      end
    else if in_range 240 244 b1 then
      match s1 with
      | String c2 (String c3 (String c4 s4)) =>
        in_range (lo4 b1) (hi4 b1) (byte_of c2) && cont (byte_of c3) && cont (byte_of c4)
          && valid_utf8 s4
      | _ => false
      end
    else false
  end.

(** All bytes below 0x80. *)
Fixpoint is_ascii_string (s : string) : bool :=
  match s with
  | EmptyString => true
  | String c s' => (byte_of c <? 128) && is_ascii_string s'
  end.
