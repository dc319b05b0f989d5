(** * Dictionaries: the two shipped synonym filters. *)

From Verif Require Import Base Synonyms SoTable NbaTable.

(** filters/stackoverflow/filter.go:13-15 [Tags], [ignoreRunes] = ' ', '-', '.', '/' *)
Definition Tags_config : config := mkConfig so_mappings true [32; 45; 46; 47]%N.

(** filters/nba/filter.go:7,11 [CurrentPlayers], [ignore] = ' ', '.', '\'', '-', U+2013 *)
Definition CurrentPlayers_config : config := mkConfig nba_mappings true [32; 46; 39; 45; 8211]%N.
