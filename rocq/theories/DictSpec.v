(** * DictSpec: what C37 asks of the word scanner and of a dictionary. *)

From Verif Require Import Base Utf8 Unicode Token Stream StreamSpec Tokenizer Synonyms SynSpec ChainSpec.

(** The scanner cuts [k] between runes, and makes every comma a piece of its own. *)
Definition cuts_at_commas (scan : oracle) (k : string) : Prop :=
  flat_map runes (pending (scan (mkReader k None))) = runes k /\
  forall x, In x (pending (scan (mkReader k None))) -> In 44%N (runes x) -> x = ","%string.

(** No two entries with the same spelling have different canonicals; nothing is empty. *)
Definition unambiguous (U : unicode) (ic : bool) (ig : list N) (D : dictionary) : Prop :=
  (forall l1 c1 l2 c2, In (l1, c1) D -> In (l2, c2) D -> spelled U ic ig l1 = spelled U ic ig l2 -> c1 = c2) /\
  (forall l c, In (l, c) D -> spelled U ic ig l <> [] /\ c <> EmptyString).

(** The listed synonyms of Tags that are not recognised, all others are (C64). *)
Definition Tags_unrecognised : list string :=
  [".bash profile"; ".bashrc"; ".each"; ".htaccess"; ".net"; ".net 3.5"; ".net 4.0"; ".net 4.5"; ".net 4.5.1";
   ".net 4.5.2"; ".net assembly"; ".net async await"; ".net cf"; ".net core"; ".net framework 3.5";
   ".net framework 4.0"; ".net4"; ".net generics"; ".war"; ".ajax"; "angular1.x"; "angular4.x"; "c#"; "c# 3.0";
   "c# 4.0"; ".bat"; ".csv"; "c# language"; "c#.net"; "visual c#"; ".cs file"; "d3.js"; "d3.js v4"; ".dll";
   ".net framework"; "f#"; ".jar"; ".js"; "jboss7.x"; "vc++.net"; ".java"; "playframework 2.x"; "python 3.x";
   "selenium webdriver c#"; ".cshtml"]%string.

(** Likewise of CurrentPlayers. *)
Definition CurrentPlayers_unrecognised : list string :=
  ["Al-Farouq Aminu"; "B. J. Johnson"; "D. J. Augustin"; "D. J. Wilson"; "DeAndre' Bembry"; "Devonte' Graham";
   "Dorian Finney-Smith"; "J. J. Barea"; "Juan Toscano-Anderson"; "Justin Wright-Foreman"; "Karl-Anthony Towns";
   "Keita Bates-Diop"; "Kentavious Caldwell-Pope"; "Michael Carter-Williams"; "Michael Kidd-Gilchrist";
   "Naz Mitrou-Long"; "Nickeil Alexander-Walker"; "Nigel Williams-Goss"; "P. J. Dozier"; "P. J. Tucker";
   "P. J. Washington"; "Rondae Hollis-Jefferson"; "Shai Gilgeous-Alexander"; "T. J. Leaf"; "T. J. McConnell";
   "T. J. Warren"; "Talen Horton-Tucker"; "Timothé Luwawu-Cabarrot"; "Timothe Luwawu-Cabarrot";
   "Willie Cauley-Stein"]%string.
