(** * Property theorems C90 *)

From Coq Require Import ZArith.
From Verif Require Import Base Utf8 Unicode UnicodeData Token Stream StreamSpec Tokenizer Words WordSplit WordSplitProofs Scanner ScannerSpec ScannerProofs Html Cli
  BufReader SimSpec PropArriveLemmas.
Local Open Scope string_scope.

(** A bufio.Reader delivers what the reader below it delivers. *)
Theorem C90_buffered_reader :
  forall (size : nat) (rd : io_reader) (r : RS rd) (d : string) (e : rderr), 0 < size ->
  delivers_text rd r d e -> delivers_text (bufio_Reader size rd) (br_New rd r) d e.
Proof. exact bufio_delivers. Qed.
Print Assumptions C90_buffered_reader.

(** Two readers delivering the same text give streams that cannot be told apart, ... *)
Theorem C90_same_stream :
  forall (split : string -> bool -> option string), split_ok split ->
  forall (start_size max_size : nat), 0 < start_size -> 0 < max_size ->
  forall (U : unicode) (rd1 : io_reader) (r1 : RS rd1) (rd2 : io_reader) (r2 : RS rd2) (d : string) (e : rderr),
  delivers_text rd1 r1 d e -> delivers_text rd2 r2 d e -> fits max_size split d ->
  alike (TokenizeFrom start_size max_size split rd1 U r1) (TokenizeFrom start_size max_size split rd2 U r2).
Proof. exact C90_same. Qed.
Print Assumptions C90_same_stream.

(** ... namely the stream of Tokenize in the other theorems. *)
Theorem C90_same_as_Tokenize :
  forall (split : string -> bool -> option string), split_ok split ->
  forall (start_size max_size : nat), 0 < start_size -> 0 < max_size ->
  forall (U : unicode) (rd : io_reader) (r : RS rd) (d : string) (e : rderr) (seg : string -> list string),
  delivers_text rd r d e -> fits max_size split d -> (forall x, cut_into split x (seg x)) ->
  alike (TokenizeFrom start_size max_size split rd U r) (Tokenize U (scan_of seg) (mkReader d (match e with EOF => None | RErr er => Some er end))).
Proof. exact C90_tokens. Qed.
Print Assumptions C90_same_as_Tokenize.

(** What the tool writes, to whatever writer, depends on nothing but what the stream delivers. *)
Theorem C90_same_writes :
  forall (w : writer) (size : nat) (direct count lines : bool) (b : bwriter w) (s1 s2 : TokenStream), alike s1 s2 ->
  same_outcome (fun x => x) (fun x => x) (fun n => write_tokens w size direct count lines n b s1) (fun n => write_tokens w size direct count lines n b s2).
Proof. exact C90_written. Qed.
Print Assumptions C90_same_writes.

(** The tool as it runs (input arriving in any portions, through a bufio.Reader and a bufio.Scanner) does what [execute] does. *)
Theorem C90_execute :
  forall (split : string -> bool -> option string), split_ok split ->
  forall (start_size max_size : nat), 0 < start_size -> 0 < max_size ->
  forall (U : unicode) (seg : string -> list string), (forall x, cut_into split x (seg x)) ->
  forall (parse : reader -> hparser) (out : writer) (dk : disk) (direct : bool) (scan : oracle) (wo : world out) (c : config)
    (src : source_of) (size : Z) (tgt : target_of) (wsize : Z) (rd : io_reader) (r : RS rd) (e : rderr),
  cHTML c = false -> Reader c = Some (src, size) -> Writer c = Some (tgt, wsize) -> (0 < size)%Z ->
  Forall (any_filter U scan) (cFilters c) ->
  delivers_text rd r (rdata (reader_of out wo src)) e -> rerr (reader_of out wo src) = match e with EOF => None | RErr er => Some er end ->
  fits max_size split (rdata (reader_of out wo src)) ->
  same_outcome (fun x : option error * world out => x)
    (fun x : option error * bwriter (target_writer out dk tgt) => (fst x, (bws (snd x) : world out)))
    (fun fuel => execute U (scan_of seg) parse out dk direct fuel wo c)
    (fun fuel => write_tokens (target_writer out dk tgt) (Z.to_nat wsize) direct (cCount c) (cLines c) fuel
       (@mkBW (target_writer out dk tgt) EmptyString None wo)
       (ApplyFilters (cFilters c)
         (TokenizeFrom start_size max_size split (bufio_Reader (Z.to_nat size) rd) U (br_New rd r)))).
Proof. exact C90_lemma. Qed.
Print Assumptions C90_execute.

(** The word rules of UAX #29 and the usual reader satisfy the hypotheses. *)
Example C90_example_split : split_ok word_split /\ forall x, cut_into word_split x (word_segments x).
Proof. exact (conj word_split_ok word_split_cuts). Qed.
Example C90_example_delivers : delivers_text (portions EOF) ["It's "; "3"; ".14"] "It's 3.14" EOF.
Proof. exact (portions_deliver EOF ["It's "; "3"; ".14"] ltac:(cbn; intros c H; repeat destruct H as [<-|H]; try discriminate; contradiction)). Qed.

(** A bufio.Reader of 4 bytes under a scanner whose buffer begins with 3. *)
Example C90_example :
  let run ch := match StreamString 60 (TokenizeFrom 3 64 word_split (bufio_Reader 4 (portions EOF)) go_unicode (br_New (portions EOF) ch)) with
                | Ret (x, _) => Some x
                | _ => None
                end in
  run ["It's "; "3"; ".14"] = Some ("It's 3.14", None) /\ run ["It"; "'s 3."; "1"; "4"] = Some ("It's 3.14", None).
Proof. vm_compute. split; reflexivity. Qed.
