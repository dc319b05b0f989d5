(** * Property theorems C45 - C47: token queues *)

From Coq Require Import ZArith.
From Verif Require Import Base Unicode UnicodeData Token Stream StreamSpec Queue Tokenizer Words Filters Synonyms ContractionsTable
  SliceQueue QueueSpec Cost CostSpec SynSpec ChainSpec Sources QueueProofs PropQueueLemmas CostProofs.

(** ** C45 *)

(** For every memory in which no two queues share an array, whatever the offsets and capacities, every program on
    the queues, and every capacity that append may choose: the program panics exactly if the FIFO specification
    does; otherwise the answers and the final contents are those of the specification, the queues still share
    nothing, and no other array has changed. *)
Theorem C45_queues_are_FIFO :
  forall (A : Type) (nil_ : A) (os : list (op A)) (m : mem A), separate m ->
  match exec_all nil_ os m with
  | Ret (as_, m') =>
    fifo_all os (contents m) = Some (as_, contents m') /\ separate m' /\
    forall a, a < length (heap_ m) -> (forall j s, nth_error (queues m) j = Some s -> ~ uses s a) ->
      cells (heap_ m') a = cells (heap_ m) a
  | Panic => fifo_all os (contents m) = None
  | NoFuel => False
  end.
Proof. exact (@C45_lemma). Qed.
Print Assumptions C45_queues_are_FIFO.

(** The list operations used in the models of the filters (Queue.v) are those of the specification. *)
Theorem C45_list_queues :
  forall (q dst : queue) (xs : list token) (n e : nat),
  fifo (OLen 0) [q] = Some (IsLen (q_len q), [q]) /\
  fifo (OAny 0) [q] = Some (IsAny (q_any q), [q]) /\
  fifo (OPop 0) [q] = opt (do (t, q') <- q_pop q; Ret (IsToken t, [q'])) /\
  fifo (ODrop 0 (Z.of_nat n)) [q] = opt (do q' <- q_drop q n; Ret (Nothing, [q'])) /\
  fifo (OPush 0 xs e) [q] = Some (Nothing, [q_push q xs]) /\
  fifo (OClear 0) [q] = Some (Nothing, [q_clear q]) /\
  fifo (OPopTo 0 1 e) [q; dst] = opt (do (q', dst') <- q_popto q dst; Ret (Nothing, [q'; dst'])) /\
  fifo (OFlushTo 0 1 e) [q; dst] = Some (Nothing, [fst (q_flushto q dst); snd (q_flushto q dst)]).
Proof. exact C45_list_lemma. Qed.
Print Assumptions C45_list_queues.

(** A program that starts from nothing; [None]: a panic. *)
Example C45_example :
  separate (mkMem (A := nat) [] []) /\
  match exec_all 0 [ONew []; ONew [7; 8]; OPush 0 [1; 2; 3] 1; OPopTo 0 1 0; OPush 0 [4] 5; OFlushTo 0 1 2; OPop 1; ODrop 1 2; OLen 1; OAny 0]
          (mkMem [] []) with
  | Ret (as_, m) => Some (as_, contents m) | _ => None end =
  Some ([Nothing; Nothing; Nothing; Nothing; Nothing; Nothing; IsToken 7; Nothing; IsLen 3; IsAny false], [[]; [2; 3; 4]]) /\
  exec_all 0 [ONew [1; 2]; ODrop 0 3] (mkMem [] []) = Panic /\
  exec_all 0 [ONew []; OPop 0] (mkMem [] []) = Panic.
Proof. split; [exact empty_separate|]. vm_compute. repeat split; reflexivity. Qed.

(** ** C46 *)

(** C46 is false: the queue works in the caller's array. *)
Theorem C46_refuted :
  ~ (forall (A : Type) (nil_ : A) (m : mem A) (s : slice) os as_ m', separate (NewSpread m s) ->
     exec_all nil_ os (NewSpread m s) = Ret (as_, m') -> view (heap_ m') s = view (heap_ m) s).
Proof. exact C46_refutation. Qed.
Print Assumptions C46_refuted.

(** What the caller sees in the slice after Drop(n) (Pop is n = 1): the elements have moved up and the last n are doubled. *)
Theorem C46_Drop_moves_the_callers_elements :
  forall (A : Type) (h : heap A) (s : slice) (n : nat), well_formed h s -> n <= s_len s ->
  exists k m', Drop (NewSpread (mkMem h []) s) 0 (Z.of_nat n) = Ret (k, m') /\
    view (heap_ m') s = skipn n (view h s) ++ skipn (s_len s - n) (view h s).
Proof. exact (@C46_Drop). Qed.
Print Assumptions C46_Drop_moves_the_callers_elements.

(** As long as nothing is taken out of the queue, the slice is left alone (whatever is done to other queues);
    with C45 this also holds for a slice that was not passed to New. *)
Theorem C46_slice_unchanged_partial :
  forall (A : Type) (nil_ : A) (m : mem A) (s : slice) os as_ m', separate (NewSpread m s) ->
  Forall (keeps (length (queues m))) os -> exec_all nil_ os (NewSpread m s) = Ret (as_, m') ->
  view (heap_ m') s = view (heap_ m) s.
Proof. exact (@C46_partial_lemma). Qed.
Print Assumptions C46_slice_unchanged_partial.

Example C46_example :
  let s := mkSlice 0 1 3 4 in
  match exec_all 0 [OPush 0 [9] 0; OPush 0 [10; 11] 2] (NewSpread (mkMem [[5; 1; 2; 3; 6]] []) s) with
  | Ret (_, m) => (view (heap_ m) s, contents m) | _ => ([], []) end = ([1; 2; 3], [[1; 2; 3; 9; 10; 11]]) /\
  match exec_all 0 [OPop 0] (NewSpread (mkMem [[5; 1; 2; 3; 6]] []) s) with
  | Ret (_, m) => (view (heap_ m) s, contents m) | _ => ([], []) end = ([2; 3; 3], [[2; 3]]).
Proof. vm_compute. split; reflexivity. Qed.

(** ** C47 *)

(** C47 is false for every synonyms filter: for every factor c there is an input on which more than c element moves
    per token of input and output are made. *)
Theorem C47_refuted :
  forall (U : unicode) (scan : oracle), scanner_ok scan -> uIsSpace U 44 = false ->
  forall ms ic ig D b, dictionary_of (key_tokens U scan) ms D -> built_from U scan ms ic ig b ->
  forall c, exists s l o n, Yields s l /\ Yields (SynFilter U None b s) o /\
    Drained (syn_next_c U b) (mkSyn s [] []) o n /\ c * (length l + length o) < n.
Proof. exact C47_refutation. Qed.
Print Assumptions C47_refuted.

(** On every input the moves grow with the square of the output. *)
Theorem C47_synonyms_quadratic :
  forall (U : unicode) (scan : oracle), scanner_ok scan -> uIsSpace U 44 = false ->
  forall ms ic ig D b, dictionary_of (key_tokens U scan) ms D -> built_from U scan ms ic ig b ->
  exists w, widest D w /\ forall s l, Yields s l ->
  exists o, rewrites U ic ig D w l o /\ Yields (SynFilter U None b s) o /\
    Drained (syn_next_c U b) (mkSyn s [] []) o (length o * (length o - 1) / 2).
Proof. exact C47_lower. Qed.
Print Assumptions C47_synonyms_quadratic.

(** The other filters with a queue are linear: a sigil filter never moves an element, and the contraction filter at most
    as many per call as an expansion has tokens. *)
Theorem C47_other_filters_partial :
  (forall U sigil legal s c n, Called (sigil_next_c U sigil legal) (mkSS s None []) c n -> n = 0) /\
  (forall U scan ms K, (forall k e, In (k, e) ms -> length (pending (scan (mkReader e None))) <= K) ->
   forall s c n, Called (contractions_next_c U scan ms) (mkCS s []) c n -> n <= K * c).
Proof. exact (conj C47_sigil C47_contractions). Qed.
Print Assumptions C47_other_filters_partial.

(** The counting programs are the modelled filters, and the count is the number of elements that the copy of
    SliceQueue.Drop copies. *)
Theorem C47_count_is_faithful :
  (forall U b fuel st, forget (syn_next_c U b fuel st) = syn_next U b fuel st) /\
  (forall U scan ms fuel st, forget (contractions_next_c U scan ms fuel st) = contractions_next U scan ms fuel st) /\
  (forall U sigil legal fuel st, forget (sigil_next_c U sigil legal fuel st) = sigil_next U sigil legal fuel st) /\
  (forall (A : Type) (m : mem A) i s n k m', separate m -> nth_error (queues m) i = Some s ->
   Drop m i (Z.of_nat n) = Ret (k, m') -> k = length (view (heap_ m) s) - n).
Proof. exact (conj syn_next_c_forget (conj contractions_next_c_forget (conj sigil_next_c_forget (@moved_is_copied)))). Qed.
Print Assumptions C47_count_is_faithful.

(** The shipped contraction table with the UAX #29 segmenter: at most 5 moves per call.  And a run of a synonyms filter. *)
Example C47_example :
  (forall k e, In (k, e) contraction_mappings -> length (pending (words_scan (mkReader e None))) <= 5) /\
  match build go_unicode words_scan 30 (mkConfig [("js", "javascript")]%string true []) with
  | Ret (None, b) =>
    match syn_next_c go_unicode b 30 (mkSyn (source (repeat (tok " ") 20) None) [] []) with
    | Ret (_, st, k) => Some (k, length (y_out st)) | _ => None end
  | _ => None
  end = Some (19, 19).
Proof. split; [exact C47_example_table|]. vm_compute. reflexivity. Qed.
