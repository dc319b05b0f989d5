(** * Cli: model of /repo/cmd/jargon/main.go

    The flag package (github.com/clipperhouse/flag, a fork of the standard one, not in /repo) is modelled as the
    standard library's flag; bufio.Writer as in the standard library.  The file system (afero) is a mapping from
    names to files with their contents.  Simplified: the texts printed by -version and usage are in Process.v; errors are compared by their text (main.go:74 compares the variable errNoInput); closing the files (main.go:80, 95; the results of Close are not looked at) is left out. *)

From Coq Require Import ZArith DecimalString.
From Verif Require Generators Render.
From Verif Require Import Base Utf8 Unicode Token Stream Tokenizer Html Scanner.

(* ------------------------------------------------------------------ *)
(** ** bufio.Writer *)

(** [bbuf] is buf[0:n]. *)
Record bwriter (w : writer) := mkBW { bbuf : string; bwerr : option error; bws : wstate w }.
Arguments mkBW {w}.
Arguments bbuf {w}.
Arguments bwerr {w}.
Arguments bws {w}.

Definition err_short_write : error := "short write"%string.

(** bytes [:n] *)
Fixpoint sfirst (n : nat) (s : string) : string :=
  match n, s with
  | S n', String c s' => String c (sfirst n' s')
  | _, _ => EmptyString
  end.

Section Bufio.
Variable w : writer.
(** len(buf) *)
Variable size : nat.
(** Does a long string go directly to an underlying io.StringWriter when the buffer is empty (newer versions of Go)? *)
Variable direct : bool.

(** (Writer).Flush *)
Definition Flush (b : bwriter w) : option error * bwriter w :=
  match bwerr b with
  | Some e => (Some e, b)
  | None =>
    if Nat.eqb (String.length (bbuf b)) 0 then (None, b)
    else
      let '((n, err), ws') := wwrite w (bws b) (bbuf b) in
      let err := match err with
                 | None => if Nat.ltb n (String.length (bbuf b)) then Some err_short_write else None
                 | Some e => Some e
                 end in
      match err with
      | Some e => (Some e, mkBW (sdrop n (bbuf b)) (Some e) ws')
      | None => (None, mkBW EmptyString None ws')
      end
  end.

Definition Available (b : bwriter w) : nat := size - String.length (bbuf b).

(** (Writer).WriteString *)
Fixpoint WriteString (k : nat) (b : bwriter w) (s : string) : outcome (option error * bwriter w) :=
  match k with
  | O => NoFuel
  | S k' =>
    if Nat.ltb (Available b) (String.length s) && (match bwerr b with None => true | Some _ => false end) then
      if direct && Nat.eqb (String.length (bbuf b)) 0 then
        let '((n, err), ws') := wwrite w (bws b) s in
        WriteString k' (mkBW (bbuf b) err ws') (sdrop n s)
      else
        let n := Available b in
        let '(_, b') := Flush (mkBW (bbuf b ++ sfirst n s)%string (bwerr b) (bws b)) in
        WriteString k' b' (sdrop n s)
    else
      match bwerr b with
      | Some e => Ret (Some e, b)
      | None => Ret (None, mkBW (bbuf b ++ s)%string None (bws b))
      end
  end.

(** (Writer).WriteByte; WriteRune calls it for runes below 0x80 *)
Definition WriteByte (b : bwriter w) (c : ascii) : option error * bwriter w :=
  match bwerr b with
  | Some e => (Some e, b)
  | None =>
    let '(e, b') := if Nat.eqb (Available b) 0 then Flush b else (None, b) in
    match e with
    | Some e => (Some e, b')
    | None => (None, mkBW (bbuf b' ++ String c EmptyString)%string None (bws b'))
    end
  end.

(* ------------------------------------------------------------------ *)
(** ** execute *)

(** strconv.Itoa of a count *)
Definition itoa (n : nat) : string := NilZero.string_of_uint (Nat.to_uint n).

Definition newline : ascii := "010"%char.

(** main.go:309-331 *)
Fixpoint write_all (lines : bool) (fuel k : nat) (b : bwriter w) (s : TokenStream)
  : outcome (option error * bwriter w) :=
  match k with
  | O => NoFuel
  | S k' =>
    do (ok, s') <- Scan fuel s;
    if (ok : bool) then
      match Token s' with
      | None => Panic
      | Some t =>
        do (e, b1) <- WriteString fuel b (tvalue t);
        match e with
        | Some e => Ret (Some e, b1)
        | None =>
          if lines then
            let '(e, b2) := WriteByte b1 newline in
            match e with
            | Some e => Ret (Some e, b2)
            | None => write_all lines fuel k' b2 s'
            end
          else write_all lines fuel k' b1 s'
        end
      end
    else
      match Err s' with
      | Some e => Ret (Some e, b)
      | None => Ret (Flush b)
      end
  end.

(** main.go:295-331, given the tokens *)
Definition write_tokens (count lines : bool) (fuel : nat) (b : bwriter w) (tokens : TokenStream)
  : outcome (option error * bwriter w) :=
  if count then
    do ((n, err), _) <- Count fuel tokens;
    match err with
    | Some e => Ret (Some e, b)
    | None =>
      do (_, b1) <- WriteString fuel b (itoa n ++ String newline EmptyString)%string;
      Ret (Flush b1)
    end
  else write_all lines fuel fuel b tokens.
End Bufio.

(* ------------------------------------------------------------------ *)
(** ** The file system *)

Record fsys := mkFs {
  names : string -> option nat;            (* the file of a name *)
  data : nat -> string;                    (* its contents *)
  fresh : nat;                             (* number of the next new file *)
  noopen : string -> option error;         (* Open fails although the name exists *)
  nocreate : string -> option error;       (* Create fails *)
  readerr : nat -> option error;           (* reading ends with an error after the contents *)
  stat : nat -> string -> Z + error        (* Stat().Size(), or Stat fails *)
}.

(** Write calls on a file with given contents: [None]: all of the text is accepted; [Some (n, e)]: only (at most) [n] bytes,
    then error [e], as on a full disk.  Create and Open are not affected. *)
Definition disk := nat -> string -> string -> option (nat * error).
Definition no_limit : disk := fun _ _ _ => None.

Definition err_not_exist : error := "file does not exist"%string.

(** Fs.Open *)
Definition fs_Open (f : fsys) (name : string) : nat + error :=
  match noopen f name with
  | Some e => inr e
  | None => match names f name with Some i => inl i | None => inr err_not_exist end
  end.

Definition set_data (f : fsys) (i : nat) (d : string) : fsys :=
  mkFs (names f) (fun j => if Nat.eqb j i then d else data f j) (fresh f) (noopen f) (nocreate f) (readerr f) (stat f).

(** (File).Write *)
Definition file_Write (dk : disk) (f : fsys) (i : nat) (v : string) : (nat * option error) * fsys :=
  match dk i (data f i) v with
  | None => ((String.length v, None), set_data f i (data f i ++ v)%string)
  | Some (n, e) => let p := sfirst n v in ((String.length p, Some e), set_data f i (data f i ++ p)%string)
  end.

(** Fs.Create: truncates an existing file *)
Definition fs_Create (f : fsys) (name : string) : (nat + error) * fsys :=
  match nocreate f name with
  | Some e => (inr e, f)
  | None =>
    match names f name with
    | Some i => (inl i, set_data f i EmptyString)
    | None =>
      let i := fresh f in
      (inl i, mkFs (fun n => if seqb n name then Some i else names f n) (fun j => if Nat.eqb j i then EmptyString else data f j)
                   (S i) (noopen f) (nocreate f) (readerr f) (stat f))
    end
  end.

(* ------------------------------------------------------------------ *)
(** ** config and its setters *)

(** Where a buffered reader reads from, a buffered writer writes to. *)
Inductive source_of := Stdin | InFile (i : nat).
Inductive target_of := Stdout | OutFile (i : nat).

(** main.go:117-130 *)
Record config := mkCfg {
  cHTML : bool; cCount : bool; cLines : bool;
  cFilters : list Filter;
  Filein : option nat; Fileout : option nat;
  Pipedin : bool; Pipedout : bool;
  Reader : option (source_of * Z);         (* with the buffer size *)
  Writer : option (target_of * Z)
}.

(** main.go:59-64 *)
Definition new_config (html count lines : bool) : config :=
  mkCfg html count lines [] None None false false None None.

Definition err_no_input : error := "no input"%string.
Definition err_two_input : error := "choose *either* an input -file argument *or* piped input"%string.
(** os.ModeCharDevice *)
Definition mode_char_device : N := 2097152.

(** main.go:143-168 *)
Definition setInput (f : fsys) (c : config) (mode : N) (filein : string) : option error * config :=
  let opened :=
    if seqb filein EmptyString then inl (Filein c)
    else match fs_Open f filein with inl i => inl (Some i) | inr e => inr e end in
  match opened with
  | inr e => (Some e, c)
  | inl file =>
    let piped := N.eqb (N.land mode mode_char_device) 0 in
    let c' := mkCfg (cHTML c) (cCount c) (cLines c) (cFilters c) file (Fileout c) piped (Pipedout c) (Reader c) (Writer c) in
    let has_file := match file with Some _ => true | None => false end in
    if negb (piped || has_file) then (Some err_no_input, c')
    else if piped && has_file then (Some err_two_input, c')
    else (None, c')
  end.

Definition add_filter (c : config) (f : Filter) : config :=
  mkCfg (cHTML c) (cCount c) (cLines c) (cFilters c ++ [f]) (Filein c) (Fileout c) (Pipedin c) (Pipedout c) (Reader c) (Writer c).

Section Filters.
(** ascii.Fold, contractions.Expand, stackoverflow.Tags; the stemmers by language *)
Variable Fold Expand Tags : Filter.
Variable Stem : string -> Filter.
(** strconv.IsPrint; flag.CommandLine.Name(), which is os.Args[0] *)
Variable isPrint : N -> bool.
Variable prog : string.

(** main.go:179-187 *)
Definition langs : list string := ["english"; "french"; "norwegian"; "russian"; "spanish"; "swedish"]%string.
Definition stemmerMap : list (string * Filter) := map (fun l => (l, Stem l)) langs.

(** main.go:170-177 *)
Definition filterMap : list (string * Filter) :=
  [ ("-ascii", Fold); ("-contractions", Expand); ("-lemmas", Lemmas); ("-distinct", Distinct);
    ("-stack", Tags); ("-stem", Stem "english") ]%string.

(** main.go:200 *)
Definition err_lang (lang : string) : error :=
  ("lang " ++ Render.Quote isPrint lang ++ " is not known by " ++ prog ++ "; options are " ++ Generators.join ", " langs)%string.

(** main.go:189-209 *)
Fixpoint setFilters (c : config) (args : list string) (lang : string) : option error * config :=
  match args with
  | [] => (None, c)
  | arg :: args' =>
    match assoc arg filterMap with
    | None => setFilters c args' lang
    | Some filter =>
      if seqb arg "-stem"%string && negb (seqb lang EmptyString) then
        match assoc lang stemmerMap with
        | Some stem => setFilters (add_filter c stem) args' lang
        | None => (Some (err_lang lang), c)
        end
      else setFilters (add_filter c filter) args' lang
    end
  end.
End Filters.

(** main.go:211-223 *)
Definition setOutput (f : fsys) (c : config) (fileout : string) : option error * config * fsys :=
  let set file := mkCfg (cHTML c) (cCount c) (cLines c) (cFilters c) (Filein c) file (Pipedin c)
                        (match file with None => true | Some _ => false end) (Reader c) (Writer c) in
  if seqb fileout EmptyString then (None, set (Fileout c), f)
  else match fs_Create f fileout with
  | (inl i, f') => (None, set (Some i), f')
  | (inr e, f') => (Some e, c, f')
  end.

Definition set_reader (c : config) (r : source_of * Z) : config :=
  mkCfg (cHTML c) (cCount c) (cLines c) (cFilters c) (Filein c) (Fileout c) (Pipedin c) (Pipedout c) (Some r) (Writer c).

(** bufio.NewReaderSize: at least 16 *)
Definition NewReaderSize (s : source_of) (size : Z) : source_of * Z := (s, Z.max size 16).

(** main.go:225-258.  A reader on a nil file (line 233, neither pipe nor file) is not represented: no reader is set. *)
Definition setReader (f : fsys) (c : config) : option error * config :=
  let c1 :=
    if Pipedin c || Pipedout c then
      if Pipedin c then set_reader c (NewReaderSize Stdin 65536)
      else match Filein c with
      | Some i => set_reader c (NewReaderSize (InFile i) 65536)
      | None => c
      end
    else c in
  match Filein c with
  | None => (None, c1)
  | Some i =>
    match stat f i (data f i) with
    | inr e => (Some e, c1)
    | inl size =>
      let buf := if (size <=? 4 * 1024)%Z then (4 * 1024)%Z
                 else if (size <=? 1024 * 1024)%Z then size
                 else (1024 * 1024)%Z in
      (None, set_reader c1 (NewReaderSize (InFile i) buf))
    end
  end.

Definition err_reader : error := "reader is required"%string.
Definition err_writer : error := "writer is required"%string.

(** bufio.NewWriterSize: 4096 if the size is not positive *)
Definition NewWriterSize (t : target_of) (size : Z) : target_of * Z := (t, if (size <=? 0)%Z then 4096%Z else size).

(** main.go:260-274.  As above, no writer is set on a nil file. *)
Definition setWriter (c : config) : option error * config :=
  match Reader c with
  | None => (Some err_reader, c)
  | Some (_, size) =>
    let target := if Pipedout c then Some Stdout else match Fileout c with Some i => Some (OutFile i) | None => None end in
    match target with
    | None => (None, c)
    | Some t =>
      (None, mkCfg (cHTML c) (cCount c) (cLines c) (cFilters c) (Filein c) (Fileout c) (Pipedin c) (Pipedout c) (Reader c)
                   (Some (NewWriterSize t size)))
    end
  end.

(* ------------------------------------------------------------------ *)
(** ** The flag package *)

Inductive kind := KBool | KString.

(** main.go:35-48 *)
Definition formal : list (string * kind) :=
  [ ("stack", KBool); ("contractions", KBool); ("ascii", KBool); ("stem", KBool); ("lang", KString); ("html", KBool);
    ("file", KString); ("out", KString); ("lemmas", KBool); ("count", KBool); ("lines", KBool); ("distinct", KBool);
    ("version", KBool) ]%string.

(** strconv.ParseBool *)
Definition ParseBool (s : string) : option bool :=
  if smem s ["1"; "t"; "T"; "true"; "TRUE"; "True"]%string then Some true
  else if smem s ["0"; "f"; "F"; "false"; "FALSE"; "False"]%string then Some false
  else None.

Inductive fvalue := VBool (b : bool) | VString (s : string).

(** The name and the value of [name=value]; the sign cannot be first. *)
Fixpoint cut_eq (s : string) : string * option string :=
  match s with
  | EmptyString => (EmptyString, None)
  | String c r =>
    if Ascii.eqb c "="%char then (EmptyString, Some r)
    else let '(n, v) := cut_eq r in (String c n, v)
  end.
Definition cut_name (s : string) : string * option string :=
  match s with
  | EmptyString => (EmptyString, None)
  | String c r => let '(n, v) := cut_eq r in (String c n, v)
  end.

(** (FlagSet).Parse: the flags set, in order; [None]: an error (or -help), the program exits. *)
Fixpoint flag_Parse (args : list string) : option (list (string * fvalue)) :=
  match args with
  | [] => Some []
  | s :: args' =>
    match s with
    | String "-" (String c r) =>
      if seqb s "--"%string then Some []
      else
        let name := if Ascii.eqb c "-"%char then r else String c r in
        match name with
        | EmptyString => None
        | String c0 _ =>
          if Ascii.eqb c0 "-"%char || Ascii.eqb c0 "="%char then None
          else
            let '(nm, value) := cut_name name in
            match assoc nm formal with
            | None => None
            | Some KBool =>
              match ParseBool (match value with Some v => v | None => "true"%string end) with
              | None => None
              | Some b => option_map (cons (nm, VBool b)) (flag_Parse args')
              end
            | Some KString =>
              match value with
              | Some v => option_map (cons (nm, VString v)) (flag_Parse args')
              | None =>
                match args' with
                | [] => None
                | v :: args'' => option_map (cons (nm, VString v)) (flag_Parse args'')
                end
              end
            end
        end
    | _ => Some []
    end
  end.

(** The value of a flag after parsing: the last one set, or the default. *)
Definition get_bool (name : string) (set : list (string * fvalue)) : bool :=
  match assoc name (rev set) with Some (VBool b) => b | _ => false end.
Definition get_string (name dflt : string) (set : list (string * fvalue)) : string :=
  match assoc name (rev set) with Some (VString s) => s | _ => dflt end.

(* ------------------------------------------------------------------ *)
(** ** main *)

Section Main.
Variable U : unicode.
Variable scan : oracle.
(** html.NewTokenizer *)
Variable parse : reader -> hparser.
Variable Fold Expand Tags : Filter.
Variable Stem : string -> Filter.
Variable isPrint : N -> bool.
Variable prog : string.
(** standard output *)
Variable out : writer.
Variable dk : disk.
Variable direct : bool.

Record world := mkWorld {
  fs : fsys;
  stdin : reader;
  stdin_mode : N + error;
  stdout : wstate out
}.

Inductive exit :=
| Done                   (* exit status 0 *)
| Usage                  (* usage on standard error, exit status 0 *)
| Version                (* the version on standard output, exit status 0 *)
| BadFlags               (* message by the flag package, exit status 2 *)
| Failed (e : error).    (* the error on standard error, exit status 1 *)

(** What reading from a source delivers. *)
Definition reader_of (wo : world) (s : source_of) : reader :=
  match s with
  | Stdin => stdin wo
  | InFile i => mkReader (data (fs wo) i) (readerr (fs wo) i)
  end.

(** Write calls of the target. *)
Definition target_writer (t : target_of) : writer :=
  mkWriter world (fun wo v =>
    match t with
    | Stdout => let '(r, o) := wwrite out (stdout wo) v in (r, mkWorld (fs wo) (stdin wo) (stdin_mode wo) o)
    | OutFile i => let '(r, f) := file_Write dk (fs wo) i v in (r, mkWorld f (stdin wo) (stdin_mode wo) (stdout wo))
    end).

(** main.go:276-332.  The scanner's first Read comes before the first Write; if input and output are the same file it was
    truncated before, so all reading is determined by the contents at this point. *)
Definition execute (fuel : nat) (wo : world) (c : config) : outcome (option error * world) :=
  match Reader c, Writer c with
  | None, _ => Ret (Some err_reader, wo)
  | Some _, None => Ret (Some err_writer, wo)
  | Some (src, _), Some (tgt, size) =>
    let r := reader_of wo src in
    let tokens := if cHTML c then TokenizeHTML U scan (parse r) else Tokenize U scan r in
    let tokens := fold_left (fun tokens f => f tokens) (cFilters c) tokens in
    do (e, b) <- write_tokens (target_writer tgt) (Z.to_nat size) direct (cCount c) (cLines c) fuel
                              (@mkBW (target_writer tgt) EmptyString None wo) tokens;
    Ret (e, bws b)
  end.

(** main.go:21-115 *)
Definition main (fuel : nat) (args : list string) (wo : world) : outcome (exit * world) :=
  match flag_Parse args with
  | None => Ret (BadFlags, wo)
  | Some set =>
    if get_bool "version" set then Ret (Version, wo)
    else
      let c := new_config (get_bool "html" set) (get_bool "count" set) (get_bool "lines" set) in
      match stdin_mode wo with
      | inr e => Ret (Failed e, wo)
      | inl mode =>
        match setInput (fs wo) c mode (get_string "file" EmptyString set) with
        | (Some e, c1) =>
          if seqb e err_no_input then Ret (Usage, wo) else Ret (Failed e, wo)
        | (None, c1) =>
          match setFilters Fold Expand Tags Stem isPrint prog c1 args (get_string "lang" "english" set) with
          | (Some e, _) => Ret (Failed e, wo)
          | (None, c2) =>
            match setOutput (fs wo) c2 (get_string "out" EmptyString set) with
            | (e, c3, f') =>
              let wo' := mkWorld f' (stdin wo) (stdin_mode wo) (stdout wo) in
              match e with
              | Some e => Ret (Failed e, wo')
              | None =>
                match setReader (fs wo') c3 with
                | (Some e, _) => Ret (Failed e, wo')
                | (None, c4) =>
                  match setWriter c4 with
                  | (Some e, _) => Ret (Failed e, wo')
                  | (None, c5) =>
                    do (e, wo'') <- execute fuel wo' c5;
                    match e with
                    | Some e => Ret (Failed e, wo'')
                    | None => Ret (Done, wo'')
                    end
                  end
                end
              end
            end
          end
        end
      end
  end.
End Main.
