(** * Property theorems C01, C02 *)

From Verif Require Import Base Utf8 Unicode UnicodeData Token StreamProofs Utf8Proofs TokenProofs.

Theorem C01_NewToken_classifies :
  forall (U : unicode) (s : string) (b : bool),
  uIsSpace U 13 = true -> uIsSpace U 10 = true ->
  (NewToken U s b = None <-> s = EmptyString) /\
  (forall t, NewToken U s b = Some t ->
     tvalue t = s /\ tlemma t = b /\
     (tpunct t = true <->
        forall r, In r (runes s) -> uIsPunct U r = true \/ r = 10%N \/ r = 13%N \/ r = 9%N) /\
     (tspace t = true <-> forall r, In r (runes s) -> uIsSpace U r = true)).
Proof. exact C01_lemma. Qed.
Print Assumptions C01_NewToken_classifies.

Example C01_example_space : uIsSpace go_unicode 13 = true /\ uIsSpace go_unicode 10 = true.
Proof. vm_compute. split; reflexivity. Qed.
Example C01_example :
  map (fun s => match NewToken go_unicode s true with
                | Some t => Some (tpunct t, tspace t) | None => None end)
    [""; "abc"; ".,"; "  "; String "010" ""; crlf; "a."; "…"; String "255" ""]%string
  = [None; Some (false, false); Some (true, false); Some (false, true); Some (true, true);
     Some (true, true); Some (false, false); Some (true, false); Some (false, false)].
Proof. vm_compute. reflexivity. Qed.

Theorem C01_cache_transparent :
  forall (U : unicode) (s : string) (b : bool), NewToken U s b = new_token_uncached U s b.
Proof. exact NewToken_uncached. Qed.
Print Assumptions C01_cache_transparent.

(** Ranging over a string is determined by: an encoded scalar value is decoded; otherwise the first
    byte counts as U+FFFD.  [enc_raw] is the UTF-8 encoding of a scalar value. *)
Theorem C02_range_decodes :
  (runes EmptyString = []) /\
  (forall r s, valid_rune r = true -> runes (enc_raw r ++ s) = r :: runes s) /\
  (forall c s, (forall r s', valid_rune r = true -> String c s <> (enc_raw r ++ s')%string) ->
     runes (String c s) = RuneError :: runes s).
Proof. exact (conj eq_refl (conj runes_enc runes_bad)). Qed.
Print Assumptions C02_range_decodes.

Example C02_example_bad :
  runes (String "226" (String "130" "a")) = [65533; 65533; 97]%N /\ runes "€" = [8364]%N.
Proof. vm_compute. split; reflexivity. Qed.

Theorem C02_roundtrip :
  forall s,
  (encode (runes s) = s <-> exists l, Forall (fun r => valid_rune r = true) l /\ s = sconcat (map enc_raw l)) /\
  (encode (runes s) = s <-> valid_utf8 s = true).
Proof. exact C02_lemma. Qed.
Print Assumptions C02_roundtrip.

Example C02_example :
  encode (runes "aé€😀") = "aé€😀"%string /\
  encode (runes (String "255" "")) = "�"%string /\
  valid_utf8 (String "237" (String "160" (String "128" ""))) = false.
Proof. vm_compute. repeat split. Qed.
