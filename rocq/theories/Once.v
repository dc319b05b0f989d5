(** * Once: concurrent calls of a synonyms filter, /repo/filters/synonyms/filter.go:15-41,101-126.

    A call of [f.Filter] is a goroutine step sequence; any number of calls (numbered) interleave arbitrarily.
    [sync.Once] is the standard library's:
<<
    func (o *Once) Do(f func()) { if atomic.LoadUint32(&o.done) == 0 { o.doSlow(f) } }
    func (o *Once) doSlow(f func()) {
      o.m.Lock(); defer o.m.Unlock()
      if o.done == 0 { defer atomic.StoreUint32(&o.done, 1); f() }
    }
>>
    Memory is sequentially consistent; that this is justified (no data race on the fields) is part of C43.
    The order in which build ranges over the map is chosen when it starts. *)

From Coq Require Import Permutation.
From Verif Require Import Base Utf8 Unicode Token Stream StreamSpec Tokenizer Trie Synonyms.

Section WithUnicode.
Variable U : unicode.
Variable scan : oracle.

(** Where a call of Filter is; [e] is its local variable err (filter.go:105). *)
Inductive pc :=
| Idle                                  (* not yet called *)
| AtCheck                               (* filter.go:106, Once.Do: about to load done *)
| AtLock                                (* doSlow: waiting for the mutex *)
| AtRecheck                             (* doSlow: holds the mutex, about to test done *)
| AtBuild                               (* filter.go:107: about to run build *)
| AtWriteTrie (tr : trie) (n : nat)     (* filter.go:80 *)
| AtWriteMax (n : nat)                  (* filter.go:81 *)
| AtKillConfig                          (* filter.go:84 *)
| AtSetDone (e : option error)          (* doSlow: deferred store of done *)
| AtUnlock (e : option error)           (* doSlow: deferred unlock *)
| Made (e : option error)               (* filter.go:125: the stream has been returned; it may be in use *)
| Crashed.                              (* nil pointer dereference *)

(** The shared memory: the fields of [filter] (filter.go:15-22), the state of the Once, and the calls.
    [builds] counts executions of build. *)
Record state := mkState {
  done : bool;
  lock : option nat;
  config_ : option config;
  trie_ : option trie;
  maxWords_ : nat;
  builds : nat;
  calls : nat -> pc
}.

(** filter.go:31-41 NewFilter *)
Definition init (c : config) : state := mkState false None (Some c) None 0 0 (fun _ => Idle).

Definition upd (m : nat -> pc) (i : nat) (p : pc) : nat -> pc := fun j => if Nat.eqb j i then p else m j.

(** Some execution of build, filter.go:43-87, returns [r]. *)
Definition may_build (c : config) (r : option error * built) : Prop :=
  exists ms, Permutation (cf_mappings c) ms /\
    Returns (fun fuel => build U scan fuel (mkConfig ms (cf_ignoreCase c) (cf_ignoreRunes c))) r.

(** Call [i] takes a step. *)
Inductive step (i : nat) : state -> state -> Prop :=
| S_call d l c t n b m : m i = Idle ->
    step i (mkState d l c t n b m) (mkState d l c t n b (upd m i AtCheck))
| S_fast l c t n b m : m i = AtCheck ->
    step i (mkState true l c t n b m) (mkState true l c t n b (upd m i (Made None)))
| S_slow l c t n b m : m i = AtCheck ->
    step i (mkState false l c t n b m) (mkState false l c t n b (upd m i AtLock))
| S_lock d c t n b m : m i = AtLock ->
    step i (mkState d None c t n b m) (mkState d (Some i) c t n b (upd m i AtRecheck))
| S_skip l c t n b m : m i = AtRecheck ->
    step i (mkState true l c t n b m) (mkState true l c t n b (upd m i (AtUnlock None)))
| S_enter l c t n b m : m i = AtRecheck ->
    step i (mkState false l c t n b m) (mkState false l c t n b (upd m i AtBuild))
| S_build_ok d l c t n b m tr k : m i = AtBuild -> may_build c (None, mkBuilt (Some tr) k) ->
    step i (mkState d l (Some c) t n b m) (mkState d l (Some c) t n (S b) (upd m i (AtWriteTrie tr k)))
| S_build_err d l c t n b m e b0 : m i = AtBuild -> may_build c (Some e, b0) ->
    step i (mkState d l (Some c) t n b m) (mkState d l (Some c) t n (S b) (upd m i (AtSetDone (Some e))))
| S_crash d l t n b m : m i = AtBuild ->
    step i (mkState d l None t n b m) (mkState d l None t n (S b) (upd m i Crashed))
| S_trie d l c t n b m tr k : m i = AtWriteTrie tr k ->
    step i (mkState d l c t n b m) (mkState d l c (Some tr) n b (upd m i (AtWriteMax k)))
| S_max d l c t n b m k : m i = AtWriteMax k ->
    step i (mkState d l c t n b m) (mkState d l c t k b (upd m i AtKillConfig))
| S_kill d l c t n b m : m i = AtKillConfig ->
    step i (mkState d l c t n b m) (mkState d l None t n b (upd m i (AtSetDone None)))
| S_done d l c t n b m e : m i = AtSetDone e ->
    step i (mkState d l c t n b m) (mkState true l c t n b (upd m i (AtUnlock e)))
| S_unlock d l c t n b m e : m i = AtUnlock e ->
    step i (mkState d l c t n b m) (mkState d None c t n b (upd m i (Made e))).

(** Any interleaving. *)
Inductive runs : state -> state -> Prop :=
| R_here s : runs s s
| R_step s i s1 s2 : step i s s1 -> runs s1 s2 -> runs s s2.

(** The stream made by a call whose local err is [e]: its closure reads the fields of the filter when Next is called
    (filter.go:118-123,139-195), here in state [s]. *)
Definition stream_in (s : state) (e : option error) : Filter :=
  SynFilter U e (mkBuilt (trie_ s) (maxWords_ s)).

(** Accesses to the fields trie, maxWords and config. *)
Definition writing (p : pc) : Prop :=
  (exists tr n, p = AtWriteTrie tr n) \/ (exists n, p = AtWriteMax n) \/ p = AtKillConfig.
Definition reading (p : pc) : Prop := p = AtBuild \/ exists e, p = Made e.
End WithUnicode.
