(** Model of the include handling of capirca/lib/policy.py:2887-2972 and of the functions of
    Python's posixpath it calls. *)
From Verif Require Export Base PyStr.
Local Open Scope list_scope.
Local Open Scope string_scope.

(** ** posixpath *)

Definition slash : ascii := "/".
(** posixpath.isabs, used at policy.py:2911-2927 *)
Definition is_abs (p : string) : bool := starts_with "/" p.
(** p.endswith of a slash, in posixpath.join (policy.py:2958-2965) *)
Fixpoint ends_with_slash (p : string) : bool :=
  match p with
  | EmptyString => false
  | String c EmptyString => Ascii.eqb c slash
  | String _ p' => ends_with_slash p'
  end.
(** posixpath.join with two arguments *)
Definition path_join (a b : string) : string :=
  if is_abs b then b
  else if is_empty a || ends_with_slash a then a ++ b
  else a ++ "/" ++ b.

(** posixpath.normpath: the loop over the components; the list is kept in reverse *)
Fixpoint norm_loop (rooted : bool) (new : list string) (comps : list string) : list string :=
  match comps with
  | [] => new
  | c :: cs =>
      if is_empty c || (c =? ".") then norm_loop rooted new cs
      else
        let keep := negb (c =? "..") || (negb rooted && match new with [] => true | _ => false end)
                    || match new with x :: _ => x =? ".." | [] => false end in
        if keep then norm_loop rooted (c :: new) cs
        else norm_loop rooted (tl new) cs
  end.
(** posixpath.normpath, used at policy.py:2911-2927 *)
Definition normpath (p : string) : string :=
  if is_empty p then "."
  else
    let initial := if is_abs p then
                     if starts_with "//" p && negb (starts_with "///" p) then "//" else "/"
                   else "" in
    let comps := rev (norm_loop (negb (is_empty initial)) [] (split_char slash p)) in
    let r := initial ++ join "/" comps in
    if is_empty r then "." else r.
(** posixpath.abspath *)
Definition abspath (cwd p : string) : string :=
  normpath (if is_abs p then p else path_join cwd p).

(** posixpath.commonpath: components without "" and "."; the loop of enumerate(s1), where
    s2[i] would raise IndexError if s2 were too short *)
Definition path_comps (p : string) : list string :=
  filter (fun c => negb (is_empty c) && negb (c =? ".")) (split_char slash p).
(** posixpath.commonpath, used at policy.py:2911-2927 *)
Fixpoint common (s1 s2 : list string) : res (list string) :=
  match s1, s2 with
  | [], _ => Ok []
  | c :: s1', [] => Raise (Exn "IndexError")
  | c :: s1', d :: s2' => if c =? d then let! r := common s1' s2' in Ok (c :: r) else Ok []
  end.
(** Python's order on lists of strings *)
Fixpoint strs_leb (a b : list string) : bool :=
  match a, b with
  | [], _ => true
  | _, [] => false
  | x :: a', y :: b' => if x =? y then strs_leb a' b' else str_leb x y
  end.
(** commonpath of two paths; min and max return the first of equal elements *)
Definition commonpath2 (p q : string) : res string :=
  if Bool.eqb (is_abs p) (is_abs q) then
    let a := path_comps p in let b := path_comps q in
    let! c := if strs_leb a b then common a b else common b a in
    Ok ((if is_abs p then "/" else "") ++ join "/" c)
  else Raise (Exn "ValueError").
(** commonpath of one path *)
Definition commonpath1 (p : string) : string :=
  (if is_abs p then "/" else "") ++ join "/" (path_comps p).

(** policy.py:2911-2927 _SubDirectory *)
Definition sub_directory (cwd child parent : string) : res bool :=
  let! c := commonpath2 (abspath cwd parent) (abspath cwd child) in
  Ok (c =? commonpath1 (abspath cwd parent)).

(** ** Includes *)

(** str.splitlines(): LF, CR, CR LF, VT, FF, FS, GS, RS end a line; no empty last line.
    [cur] is the line being read, [open] says whether it has begun. *)
Definition line_end (c : ascii) : bool :=
  let k := nat_of_ascii c in ((10 <=? k) && (k <=? 13) || (28 <=? k) && (k <=? 30))%nat.
(** str.splitlines from inside a line; [open] tells whether it has begun (policy.py:2956) *)
Fixpoint splitlines_aux (s cur : string) (open : bool) : list string :=
  match s with
  | EmptyString => if open then [cur] else []
  | String c s' =>
      if line_end c then
        match s' with
        | String "010" s'' => if Ascii.eqb c "013" then cur :: splitlines_aux s'' "" false
                              else cur :: splitlines_aux s' "" false
        | _ => cur :: splitlines_aux s' "" false
        end
      else splitlines_aux s' (cur ++ String c "") true
  end.
(** str.splitlines (policy.py:2956) *)
Definition splitlines (s : string) : list string := splitlines_aux s "" false.
(** s.strip() of single and double quotes *)
Definition is_quote (c : ascii) : bool := Ascii.eqb c "'" || Ascii.eqb c """".
(** from the left (policy.py:2958-2961) *)
Fixpoint lstrip_quotes (s : string) : string :=
  match s with String c s' => if is_quote c then lstrip_quotes s' else s | EmptyString => "" end.
(** from the right (policy.py:2958-2961) *)
Fixpoint rstrip_quotes (s : string) : string :=
  match s with
  | EmptyString => ""
  | String c s' => let r := rstrip_quotes s' in if is_quote c && is_empty r then "" else String c r
  end.
(** from both sides (policy.py:2958-2961) *)
Definition strip_quotes (s : string) : string := rstrip_quotes (lstrip_quotes s).

(** The file system as _ReadFile (policy.py:2887-2908) sees it: os.path.exists is false, or
    open/read fails, or the text. *)
Inductive file := Missing | Unreadable | Text (s : string).
(** policy.py:2887-2908 *)
Definition read_file (fs : string -> file) (path : string) : res string :=
  match fs path with
  | Missing => Raise (Exn "FileNotFoundError")
  | Unreadable => Raise (Exn "FileReadError")
  | Text s => Ok s
  end.

(** The file named by an include line, if the line is one: policy.py:2958-2961. *)
Definition include_target (line : string) : option string :=
  match split_ws line with
  | w :: f :: _ => if w =? "#include" then Some (strip_quotes f) else None
  | _ => None
  end.

Section Preprocess.
  Context (fs : string -> file) (cwd base_dir : string).
  (** The loop over the lines, policy.py:2956-2971, given the recursive call.  The first
      component of the result lists the paths passed to _ReadFile, in order. *)
  Fixpoint pre_lines (rec : string -> list string * res (list string)) (lines : list string)
    : list string * res (list string) :=
    match lines with
    | [] => ([], Ok [])
    | line :: rest =>
        match include_target line with
        | Some f =>
            let path := path_join base_dir f in
            match sub_directory cwd path base_dir with
            | Raise e => ([], Raise e)
            | Ok false => ([], Raise (Exn "InvalidIncludeDirectoryError"))
            | Ok true =>
                match read_file fs path with
                | Raise e => ([path], Raise e)
                | Ok data =>
                    let inc := rec data in
                    match snd inc with
                    | Raise e => (path :: fst inc, Raise e)
                    | Ok l =>
                        let r := pre_lines rec rest in
                        ((path :: fst inc ++ fst r)%list, let! l' := snd r in Ok (l ++ l')%list)
                    end
                end
            end
        | None =>
            let r := pre_lines rec rest in
            (fst r, let! l' := snd r in Ok (line :: l'))
        end
    end.
  (** policy.py:2930-2972 _Preprocess; max_depth is a natural number *)
  Fixpoint preprocess (max_depth : nat) (data : string) : list string * res (list string) :=
    match max_depth with
    | O => ([], Raise (Exn "RecursionTooDeepError"))
    | S d => pre_lines (preprocess d) (map rstrip (splitlines data))
    end.
End Preprocess.
