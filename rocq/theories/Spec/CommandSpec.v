(** What a user writes on the command line. *)
From Coq Require Import List String Ascii Bool.
Import ListNotations.
Open Scope string_scope.
Open Scope list_scope.

Inductive digits : string -> Prop := digits_one c : (48 <= nat_of_ascii c <= 57)%nat -> digits (String c "") | digits_more c s : (48 <= nat_of_ascii c <= 57)%nat -> digits s -> digits (String c s).
(** A negative number: -digits, -digits.digits or -.digits. *)
Definition negative (s : string) : Prop := exists a b, s = String "-" (a ++ b)%string /\ (digits a /\ (b = "" \/ exists c, b = String "." c /\ digits c) \/ a = "" /\ exists c, b = String "." c /\ digits c).
(** -v, -vv, -vvv, ... or --verbose, or the beginning of --verbose with one letter at least. *)
Inductive only_v : string -> Prop := only_v_one : only_v "v" | only_v_more s : only_v s -> only_v (String "v" s).
Definition verbose_flag (s : string) : Prop := (exists vs, only_v vs /\ s = String "-" vs) \/ (exists a b, s = ("--v" ++ a)%string /\ (a ++ b)%string = "erbose").
(** A string that begins with - and that is read as the name of a file: it has a space and begins neither with -v nor with -h; if it begins with --, what is before its first sign = (or all of it) is not the beginning of a long option. *)
Definition odd_name (s : string) : Prop := (exists a b, s = (a ++ String " " b)%string) /\ (exists c t, s = String "-" (String c t) /\ c <> "v"%char /\ c <> "h"%char) /\
  (forall a, (exists t, s = String "-" (String "-" t)) -> (exists b, s = (a ++ String "=" b)%string /\ (forall x y, a <> (x ++ String "=" y)%string)) \/ s = a /\ (forall x y, a <> (x ++ String "=" y)%string) ->
     (forall b, (a ++ b)%string <> "--help") /\ (forall b, (a ++ b)%string <> "--verbose")).
Definition file_name (s : string) : Prop := (forall t, s <> String "-" t) \/ s = "-" \/ negative s \/ odd_name s.

(** [reads l files verbose]: the files of the line, in order, and whether the option is there. *)
Inductive reads : list string -> list string -> bool -> Prop :=
| reads_end : reads [] [] false
| reads_file s l files v : file_name s -> reads l files v -> reads (s :: l) (s :: files) v
| reads_flag s l files v : verbose_flag s -> reads l files v -> reads (s :: l) files true
| reads_after l : (forall s, In s l -> s <> "--") -> reads ("--" :: l) l false.

(** -h, -hv, -vh, ...: the letters v and h, with one h at least; or the beginning of --help with one letter at least. *)
Definition letter (c : ascii) : Prop := c = "v"%char \/ c = "h"%char.
Fixpoint has_char (c : ascii) (s : string) : Prop := match s with EmptyString => False | String c' s => c' = c \/ has_char c s end.
Definition help_flag (s : string) : Prop :=
  (exists t, s = String "-" t /\ has_char "h" t /\ (forall c, has_char c t -> letter c)) \/ (exists a b, s = ("--h" ++ a)%string /\ (a ++ b)%string = "elp").
(** An option that ends the reading with an error: a value is given to a long option, or an unknown letter follows -v or -h. *)
Definition bad_option (s : string) : Prop :=
  (exists a b t, s = (a ++ String "=" t)%string /\ ((a ++ b)%string = "--help" \/ (a ++ b)%string = "--verbose") /\ (3 <= String.length a)%nat) \/
  (exists c c' t, s = String "-" (String c t) /\ letter c /\ has_char c' t /\ ~ letter c').
(** --=...: the beginning of both long options. *)
Definition unclear (s : string) : Prop := exists t, s = ("--=" ++ t)%string.
(** [helps l]: the help is displayed. *)
Inductive helps : list string -> Prop :=
| helps_here s l : help_flag s -> (forall a x b, l = a ++ x :: b -> ~ In "--" a -> ~ unclear x) -> helps (s :: l)
| helps_later s l : s <> "--" -> ~ bad_option s -> ~ unclear s -> helps l -> helps (s :: l).
