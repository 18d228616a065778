(** The command-line tool: mapry/main.py, and the reading of the schema file in
    mapry/parse.py.

    The file system is a function of the paths.  Not modelled: permissions, links,
    full disks and concurrent changes; files whose bytes are no text; the texts of the
    messages (they are named by the branch which prints them). *)
From Coq Require Import String List Arith NArith ZArith Bool.
From Verif Require Import Base M_Naming M_Schema M_Validate M_LangValid.
Import ListNotations.
Open Scope list_scope.
Local Open Scope nat_scope.

(** A path is the list of its segments, the innermost first: [outdir / name] is
    [name :: outdir] and [pathlib.Path.parent] is the tail. *)
Definition path := list str.
Inductive node := NDir | NFile (text : str).
Definition files := path -> option node.

Definition path_eqb (p q : path) : bool := if list_eq_dec (list_eq_dec N.eq_dec) p q then true else false.
Definition put (fs : files) (p : path) (n : node) : files := fun q => if path_eqb q p then Some n else fs q.

(** Exceptions with which the program ends; [DecodeFailed] is the [RuntimeError] of
    parse.py:396-411 with the line and the cursor shown, if any, and the position of
    the [json.JSONDecodeError] it shows. *)
Inductive exc :=
| Py (e : exn)
| FileExistsError
| FileNotFoundError
| NotADirectoryError
| IsADirectoryError
| UnicodeEncodeError
| DecodeFailed (shown : option (str * str)) (pos : nat).

(** An operation on the file system, which may fail half-way. *)
Inductive done := Did (fs : files) | Failed (fs : files) (e : exc).

(** [pathlib.Path.mkdir(exist_ok=True, parents=True)], as called at main.py:131, 182
    and 259 *)
Fixpoint mkdirs (fs : files) (p : path) : done :=
  match fs p with
  | Some NDir => Did fs
  | Some (NFile _) => Failed fs FileExistsError
  | None =>
      match p with
      | [] => Failed fs FileNotFoundError
      | _ :: parent =>
          match fs parent with
          | Some NDir => Did (put fs p NDir)
          | Some (NFile _) => Failed fs NotADirectoryError
          | None =>
              match mkdirs fs parent with
              | Did fs' => Did (put fs' p NDir)
              | Failed fs' e => Failed fs' e
              end
          end
      end
  end.

(** The target language, main.py:209-239: [argparse] admits these commands only. *)
Inductive lang := Cpp | Go | Python.

(** The keys of [filename_to_code], main.py:64-77, 117-128 and 170-179 *)
Definition filenames (l : lang) : list str :=
  match l with
  | Cpp => [s_ "types.h"; s_ "parse.h"; s_ "parse.cpp"; s_ "jsoncpp.h"; s_ "jsoncpp.cpp"]
  | Go => [s_ "types.go"; s_ "parse.go"; s_ "from_jsonable.go"; s_ "from_jsonable_test.go";
           s_ "to_jsonable.go"; s_ "to_jsonable_test.go"]
  | Python => [s_ "__init__.py"; s_ "parse.py"; s_ "fromjsonable.py"; s_ "tojsonable.py"]
  end.

(** main.py:45, 98, 151 *)
Definition validate_for (l : lang) (g : graph) : res (list lerr) :=
  match l with Cpp => cpp_validate g | Go => go_validate g | Python => py_validate g end.

(** main.py:56, 109, 162: the settings are [None] *)
Definition lacks_settings (l : lang) (s : schema) : bool :=
  match l with
  | Cpp => match sc_cpp s with None => true | Some _ => false end
  | Go => match sc_go s with None => true | Some _ => false end
  | Python => match sc_py s with None => true | Some _ => false end
  end.

(** What is printed to the standard error. *)
Inductive message :=
| MInvalid (errs : list lerr)   (** main.py:47-51, 100-104, 153-157 *)
| MNoSettings                   (** main.py:56-61, 109-114, 162-167 *)
| MNoSchema                     (** main.py:244-247 *)
| MNotAFile.                    (** main.py:249-253 *)

Record world := World { w_files : files; w_out : list str; w_err : list message }.
Inductive result := Exit (code : nat) | Raised (e : exc).

Definition with_files (w : world) (fs : files) : world := World fs (w_out w) (w_err w).
Definition complain (w : world) (m : message) : world := World (w_files w) (w_out w) (w_err w ++ [m]).
Definition announce (w : world) (s : str) : world := World (w_files w) (w_out w ++ [s]) (w_err w).

(** The translation of line ends when a file is read as text: [open('rt')] and
    [read_text], parse.py:383 and 393 *)
Fixpoint translate (s : str) : str :=
  match s with
  | [] => []
  | c :: s' =>
      if N.eqb c 13 then
        10%N :: match s' with
                | d :: s'' => if N.eqb d 10 then translate s'' else translate s'
                | [] => []
                end
      else c :: translate s'
  end.

(** [json.JSONDecodeError.lineno] and [colno], as computed by its constructor:
    [doc.count('\n', 0, pos) + 1] and [pos - doc.rfind('\n', 0, pos)], where [rfind]
    is -1 if there is none. *)
Definition lineno (doc : str) (pos : nat) : nat := count_occ N.eq_dec (firstn pos doc) 10%N + 1.
Fixpoint rfind (c : chr) (s : str) : option nat :=
  match s with
  | [] => None
  | d :: s' =>
      match rfind c s' with
      | Some i => Some (S i)
      | None => if N.eqb d c then Some 0 else None
      end
  end.
Definition colno (doc : str) (pos : nat) : nat :=
  match rfind 10%N (firstn pos doc) with Some i => pos - i | None => pos + 1 end.

(** parse.py:397-404 *)
Definition cursor (line : str) (col : nat) : str :=
  map (fun c => if N.eqb c 32 || N.eqb c 9 then c else 32%N) (firstn (col - 1) line) ++ [94%N].

Section Main.
  (** [re.compile] accepts the pattern. *)
  Variable re_ok : str -> bool.
  (** [json.load] of a text: the value, or the position of the error. *)
  Variable load : str -> jval + nat.
  (** The text can be encoded when it is written. *)
  Variable encodable : str -> bool.
  (** The path which an argument denotes, and its text. *)
  Variable locate : str -> path.
  Variable shown : str -> str.
  (** The text of a generated file. *)
  Variable code : lang -> str -> schema -> res str.

  (** [pathlib.Path.write_text], main.py:82, 135, 186: the file is truncated when it
      is opened. *)
  Definition write_text (fs : files) (p : path) (text : str) : done :=
    match p with
    | [] => Failed fs IsADirectoryError
    | _ :: parent =>
        match fs parent with
        | Some NDir =>
            match fs p with
            | Some NDir => Failed fs IsADirectoryError
            | _ => if encodable text then Did (put fs p (NFile text)) else Failed (put fs p (NFile [])) UnicodeEncodeError
            end
        | Some (NFile _) => Failed fs NotADirectoryError
        | None => Failed fs FileNotFoundError
        end
    end.

  (** main.py:80-82, 133-135, 184-186 *)
  Fixpoint write_all (fs : files) (outdir : path) (codes : list (str * str)) : done :=
    match codes with
    | [] => Did fs
    | (name, text) :: codes' =>
        match write_text fs (name :: outdir) text with
        | Did fs' => write_all fs' outdir codes'
        | f => f
        end
    end.

  (** main.py:64-77, 117-128, 170-179: the texts are generated in order, before any
      is written. *)
  Fixpoint generate_codes (l : lang) (s : schema) (names : list str) : res (list (str * str)) :=
    match names with
    | [] => Ok []
    | n :: names' =>
        do text <- code l n s;
        do codes <- generate_codes l s names';
        Ok ((n, text) :: codes)
    end.

  (** main.py:36-86 [generate_cpp], 89-139 [generate_go], 142-190 [generate_py]; the
      argument [arg] is the text of [outdir]. *)
  Definition generate (l : lang) (w : world) (s : schema) (arg : str) : world * result :=
    let outdir := locate arg in
    match w_files w outdir with
    | None => (w, Raised (Py ViolationError))
    | Some _ =>
        match validate_for l (sc_graph s) with
        | Raise e => (w, Raised (Py e))
        | Ok (e :: errs) => (complain w (MInvalid (e :: errs)), Exit 1)
        | Ok [] =>
            if lacks_settings l s then (complain w MNoSettings, Exit 1)
            else
              match generate_codes l s (filenames l) with
              | Raise e => (w, Raised (Py e))
              | Ok codes =>
                  match match l with Cpp => Did (w_files w) | _ => mkdirs (w_files w) outdir end with
                  | Failed fs e => (with_files w fs, Raised e)
                  | Did fs =>
                      match write_all fs outdir codes with
                      | Failed fs' e => (with_files w fs', Raised e)
                      | Did fs' => (announce (with_files w fs') (shown arg), Exit 0)
                      end
                  end
              end
        end
    end.

  (** parse.py:376-413: [schema_from_json_file]; [inr] is the exception raised.  The
      mapping is a [_OrderedDictPP], hence ordered. *)
  Definition schema_from_text (text : str) (arg : str) : schema + exc :=
    let doc := translate text in
    match load doc with
    | inl v =>
        match schema_from_mapping re_ok true v (shown arg ++ s_ "#") with
        | Ok s => inl s
        | Raise e => inr (Py e)
        end
    | inr pos =>
        match nth_error (splitlines doc) (lineno doc pos - 1) with
        | None => inr (Py IndexError)
        | Some line =>
            if length line <=? 120 then inr (DecodeFailed (Some (line, cursor line (colno doc pos))) pos)
            else inr (DecodeFailed None pos)
        end
    end.

  (** main.py:241-255: the schema, if an argument is given ([inr] ends the program) *)
  Definition load_schema (w : world) (arg : str) : option schema + (world * result) :=
    match arg with
    | [] => inl None
    | _ =>
        match w_files w (locate arg) with
        | None => inr (complain w MNoSchema, Exit 1)
        | Some NDir => inr (complain w MNotAFile, Exit 1)
        | Some (NFile text) =>
            match schema_from_text text arg with
            | inl s => inl (Some s)
            | inr e => inr (w, Raised e)
            end
        end
    end.

  (** main.py:241-274 [run] after the arguments were parsed *)
  Definition run (l : lang) (schema_arg outdir_arg : str) (w : world) : world * result :=
    match load_schema w schema_arg with
    | inr r => r
    | inl s =>
        match outdir_arg with
        | [] => (w, Raised (Py AssertionError))
        | _ =>
            match mkdirs (w_files w) (locate outdir_arg) with
            | Failed fs e => (with_files w fs, Raised e)
            | Did fs =>
                match s with
                | None => (with_files w fs, Raised (Py AssertionError))
                | Some s => generate l (with_files w fs) s outdir_arg
                end
            end
        end
    end.
End Main.
