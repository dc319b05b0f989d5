(** * Property theorem C66: the files that the generators write *)

From Verif Require Import Base Utf8 Unicode UnicodeData Generators Render RenderSpec NbaTable SoTable ContractionsTable PropRenderLemmas RenderExact.
Local Open Scope N_scope.

(** A roster for which no file is written: what is handed to gofmt is not a declaration, a line break got into a string literal. *)
Theorem C66_refuted : forall errorf, exists names m, nba_getMappings go_unicode errorf names = (Some m, None) /\
  forall isPrint, print_ok isPrint -> (forall r, 32 <= r < 127 -> isPrint r = true) -> forall m', ~ declares "nba" (broken_up isPrint nba_target m) m'.
Proof. exact C66_refuted_lemma. Qed.
Print Assumptions C66_refuted.

(** The file declares exactly the map, in its order. Missing: maps with a string in which the generator puts a line break. *)
Theorem C66_written_partial : forall isPrint format_Source file_Write pkg t m,
  In (pkg, t) [("nba", nba_target); ("stackoverflow", so_target); ("contractions", contractions_target)]%string ->
  print_ok isPrint -> formatter_ok format_Source -> (forall s, file_Write s = (s, None)) -> ~ broken_map m ->
  exists file, write isPrint format_Source None file_Write t m = (None, Some file) /\ declares pkg file m.
Proof. exact C66_lemma. Qed.
Print Assumptions C66_written_partial.

(** It is missing for good: what is handed to gofmt for such a map declares nothing. *)
Theorem C66_spoiled : forall isPrint pkg t m m',
  In (pkg, t) [("nba", nba_target); ("stackoverflow", so_target); ("contractions", contractions_target)]%string ->
  print_ok isPrint -> (forall r, 32 <= r < 127 -> isPrint r = true) -> broken_map m -> ~ declares pkg (broken_up isPrint t m) m'.
Proof. exact C66_spoiled_lemma. Qed.
Print Assumptions C66_spoiled.

(** The shipped tables are not. *)
Theorem C66_shipped_partial : forall isPrint format_Source file_Write pkg t m,
  In (pkg, t, m) [("nba", nba_target, nba_mappings); ("stackoverflow", so_target, so_mappings); ("contractions", contractions_target, contraction_mappings)]%string ->
  print_ok isPrint -> formatter_ok format_Source -> (forall s, file_Write s = (s, None)) ->
  exists file, write isPrint format_Source None file_Write t m = (None, Some file) /\ declares pkg file m.
Proof. exact C66_shipped_lemma. Qed.
Print Assumptions C66_shipped_partial.

(** A file declares one map only. *)
Theorem C66_reading : forall pkg src m m', declares pkg src m -> declares pkg src m' -> m = m'.
Proof. exact declares_unique. Qed.
Print Assumptions C66_reading.

(** The first error is returned; generated.go is left alone if it is from gofmt or from creating the file, but not if it is from writing. *)
Theorem C66_errors : forall isPrint format_Source os_Create file_Write t m,
  let '(formatted, fmtErr) := format_Source (broken_up isPrint t m) in
  let '(content, writeErr) := file_Write formatted in
  write isPrint format_Source os_Create file_Write t m =
    match fmtErr, os_Create with
    | Some e, _ => (Some e, None)
    | None, Some e => (Some e, None)
    | None, None => (writeErr, Some content)
    end.
Proof. exact C66_errors_lemma. Qed.
Print Assumptions C66_errors.

Example C66_example :
  formatter_ok (fun s => (s, None)) /\ print_ok (fun r => (32 <=? r) && (r <? 127)) /\
  write (fun r => (32 <=? r) && (r <? 127)) (fun s => (s, None)) None (fun s => (s, None)) so_target [("a\", "é"); (", ", "{b}""c")]%string =
  (None, Some "
package stackoverflow

// This file is generated. Best not to modify it, as it will likely be overwritten.

var mappings = map[string]string{
""a\\"":""\u00e9"",
"", "":""{b}\""c"",
}
"%string).
Proof. split; [exact identity_formatter_ok|split; [exact ascii_print_ok|vm_compute; reflexivity]]. Qed.
