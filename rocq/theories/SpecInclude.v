(** Where a path leads, and what including files means. *)
From Verif Require Export ModelInclude.
Local Open Scope list_scope.
Local Open Scope string_scope.

(** Follow the components of a path from a directory (a list of names from the root): an
    empty one and "." stay, ".." goes up (at the root it stays), a name goes down.  Symbolic
    links are not followed. *)
Fixpoint follow (dir : list string) (comps : list string) : list string :=
  match comps with
  | [] => dir
  | c :: cs =>
      follow (if string_dec c "" then dir else if string_dec c "." then dir
              else if string_dec c ".." then removelast dir else (dir ++ [c])%list) cs
  end.
(** The place a path names, seen from the working directory. *)
Definition place (cwd path : string) : list string :=
  follow (if is_abs path then [] else follow [] (split_char "/" cwd)) (split_char "/" path).
(** The path names the directory or something inside it. *)
Definition inside (cwd dir path : string) : Prop :=
  exists rest, place cwd path = (place cwd dir ++ rest)%list.

(** A line that includes a file: first word #include, second word the name in quotes or not. *)
Definition includes (line name : string) : Prop := include_target line = Some name.

(** Text [data] expands to [lines] with includes nested at most [depth] deep; every
    included file lies inside the base directory. *)
Inductive expands (fs : string -> file) (cwd base : string) : nat -> string -> list string -> Prop :=
| Expands depth data lines :
    expands_lines fs cwd base depth (map rstrip (splitlines data)) lines ->
    expands fs cwd base depth data lines
with expands_lines (fs : string -> file) (cwd base : string) : nat -> list string -> list string -> Prop :=
| ENil depth : expands_lines fs cwd base depth [] []
| EPlain depth line rest out :
    (forall f, ~ includes line f) -> expands_lines fs cwd base depth rest out ->
    expands_lines fs cwd base depth (line :: rest) (line :: out)
| EInclude depth line f text inc rest out :
    includes line f -> inside cwd base (path_join base f) -> fs (path_join base f) = Text text ->
    expands fs cwd base depth text inc -> expands_lines fs cwd base (S depth) rest out ->
    expands_lines fs cwd base (S depth) (line :: rest) (inc ++ out)%list.

(** A text directly includes another one. *)
Definition pulls_in (fs : string -> file) (base : string) (text text' : string) : Prop :=
  exists line f, In line (map rstrip (splitlines text)) /\ includes line f /\ fs (path_join base f) = Text text'.
(** A chain of includes leads from a text back to itself. *)
Inductive chain (fs : string -> file) (base : string) : string -> string -> Prop :=
| CStep t t' : pulls_in fs base t t' -> chain fs base t t'
| CMore t t' t'' : pulls_in fs base t t' -> chain fs base t' t'' -> chain fs base t t''.
