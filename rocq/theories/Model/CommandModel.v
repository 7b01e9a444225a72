(** Model of the command line: Pandora2d.py, and what argparse does for its parser (Python 3.9 to 3.11; later versions differ in the order of some error messages). *)
From Coq Require Import List String Ascii Bool.
Import ListNotations.
Open Scope string_scope.
Open Scope list_scope.

(** Pandora2d.py:35-51: the parser has two positional arguments, the option added by argparse (-h, --help) and -v, --verbose, which are actions without value. *)
Inductive flag := Verbose | HelpFlag.
Definition long_options : list (string * flag) := [("--help", HelpFlag); ("--verbose", Verbose)].
Definition short_option (c : ascii) : option flag := if Ascii.eqb c "h" then Some HelpFlag else if Ascii.eqb c "v" then Some Verbose else None.

(** What argparse makes of a string, before it reads the strings one after the other (argparse._parse_optional). *)
Inductive item :=
| Positional (s : string)
| Actions (l : list flag)   (** options without value *)
| Refused                   (** an option with a value, or an unknown letter after -v or -h: an error when it is read *)
| Ambiguous                 (** an abbreviation of both long options: an error before anything is read *)
| Unknown.                  (** an error when everything is read *)

(** str.split("=", 1): what is before the first sign =, and whether there is one. *)
Fixpoint before_equal (s : string) : string * bool :=
  match s with
  | EmptyString => ("", false)
  | String c s => if Ascii.eqb c "=" then ("", true) else let p := before_equal s in (String c (fst p), snd p)
  end.
Fixpoint all_chars (p : ascii -> bool) (s : string) : bool := match s with EmptyString => true | String c s => p c && all_chars p s end.
Definition is_digit (c : ascii) : bool := Nat.leb 48 (nat_of_ascii c) && Nat.leb (nat_of_ascii c) 57.
(** Digits, with or without a point: the regular expressions ^-\d+$ and ^-\d*\.\d+$ of argparse after the sign; the digits are those of ASCII. *)
Fixpoint digits_point (s : string) : bool :=
  match s with EmptyString => false | String c s => if Ascii.eqb c "." then negb (String.eqb s "") && all_chars is_digit s else is_digit c && digits_point s end.
Definition negative_number (s : string) : bool :=
  match s with String _ rest => (negb (String.eqb rest "") && all_chars is_digit rest) || digits_point rest | EmptyString => false end.
Definition has_space (s : string) : bool := negb (all_chars (fun c => negb (Ascii.eqb c " ")) s).
(** The last cases of _parse_optional: a string that begins with - and is no option. *)
Definition not_an_option (s : string) : item := if negative_number s || has_space s then Positional s else Unknown.
(** The letters after the first one of -v or -h (argparse.consume_optional): each of them must be an option; the actions are done together at the end. *)
Fixpoint letters (s : string) : option (list flag) :=
  match s with
  | EmptyString => Some []
  | String c s => match short_option c, letters s with Some f, Some l => Some (f :: l) | _, _ => None end
  end.
Definition classify (s : string) : item :=
  match s with
  | EmptyString => Positional s
  | String c rest =>
      if negb (Ascii.eqb c "-") then Positional s else
      match rest with
      | EmptyString => Positional s
      | String c' rest' =>
          if Ascii.eqb c' "-" then
            let (name, valued) := before_equal s in
            match List.filter (fun o => String.prefix name (fst o)) long_options with
            | [] => not_an_option s
            | [o] => if valued then Refused else Actions [snd o]
            | _ => Ambiguous
            end
          else match short_option c' with
            | Some f => match letters rest' with Some l => Actions (f :: l) | None => Refused end
            | None => not_an_option s
            end
      end
  end.
(** The strings after -- are positional arguments. Simplified: a path whose name is -- is refused (whether it is depends on the version of Python). *)
Fixpoint items (l : list string) : list item :=
  match l with
  | [] => []
  | s :: l => if String.eqb s "--" then map (fun s => if String.eqb s "--" then Refused else Positional s) l else classify s :: items l
  end.

(** Pandora2d.py:54-63: what the program does: the pipeline is run, the help is displayed, or there is an error message. *)
Inductive outcome := Run (config path_output : string) (verbose : bool) | Help | Wrong.
(** argparse.parse_known_args then parse_args: the options are done when they are read, the help ends the program; positional arguments in excess and unknown options are refused at the end.
    [found] are the positional arguments already read, from the last one to the first one. *)
Fixpoint read_items (found : list string) (verbose unknown : bool) (l : list item) : outcome :=
  match l with
  | [] => match found with [path_output; config] => if unknown then Wrong else Run config path_output verbose | _ => Wrong end
  | Positional s :: l => read_items (s :: found) verbose unknown l
  | Actions a :: l => if existsb (fun f => match f with HelpFlag => true | Verbose => false end) a then Help else read_items found true unknown l
  | Unknown :: l => read_items found verbose true l
  | _ :: _ => Wrong
  end.
Definition parse (l : list string) : outcome :=
  let it := items l in
  if existsb (fun i => match i with Ambiguous => true | _ => false end) it then Wrong else read_items [] false false it.

(** Pandora2d.py:54-67 and __init__.py:79-101: [read] is pandora.read_config_file, [path_of] the components of a path, [run] the program without the command line (WholeFilesModel.main_files);
    the logging that is chosen by [verbose] is not modelled. The Boolean is false when there is an error. *)
Definition command {D U P : Type} (read : string -> option U) (path_of : string -> P) (run : P -> U -> D -> D * bool) (l : list string) (d : D) : D * bool :=
  match parse l with
  | Run config path_output _ => match read config with Some user => run (path_of path_output) user d | None => (d, false) end
  | Help => (d, true)
  | Wrong => (d, false)
  end.
