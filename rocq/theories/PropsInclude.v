(** C22: included files. *)
From Verif Require Import SpecInclude PyStrFacts IncludeProofs.
Local Open Scope list_scope.
Local Open Scope string_scope.

(** Every file read while expanding a policy is inside the base directory (symbolic links
    apart), whatever the policy, the files and the depth limit. *)
Theorem C22_reads_stay_inside :
  forall fs cwd base depth data path, is_abs cwd = true ->
    In path (fst (preprocess fs cwd base depth data)) -> inside cwd base path.
Proof. intros fs cwd base depth data path A. exact (reads_inside fs cwd base A depth data path). Qed.
Print Assumptions C22_reads_stay_inside.

(** So the contents of other files cannot influence the result. *)
Theorem C22_outside_files_do_not_matter :
  forall fs fs' cwd base depth, is_abs cwd = true -> (forall p, inside cwd base p -> fs p = fs' p) ->
    forall data, preprocess fs cwd base depth data = preprocess fs' cwd base depth data.
Proof. exact preprocess_inside_only. Qed.
Print Assumptions C22_outside_files_do_not_matter.

(** Expansion succeeds, with the expected text, exactly when includes are nested less deep
    than the limit and all included files are inside the base directory and readable. *)
Theorem C22_expansion_exact :
  forall fs cwd base depth data out, is_abs cwd = true ->
    (snd (preprocess fs cwd base depth data) = Ok out <->
     exists k, S k = depth /\ expands fs cwd base k data out).
Proof. intros fs cwd base depth data out A. exact (preprocess_expands fs cwd base A depth data out). Qed.
Print Assumptions C22_expansion_exact.

(** Cyclic includes always end in an error. *)
Theorem C22_cycles_end_in_an_error :
  forall fs cwd base depth t u, is_abs cwd = true -> chain fs base t u -> chain fs base u u ->
    exists e, snd (preprocess fs cwd base depth t) = Raise e /\
      In e (map Exn ["RecursionTooDeepError"; "InvalidIncludeDirectoryError"; "FileNotFoundError"; "FileReadError"]).
Proof.
  intros fs cwd base depth t u A C D. destruct (snd (preprocess fs cwd base depth t)) as [out|e] eqn:E.
  - exfalso. apply (preprocess_expands fs cwd base A) in E. destruct E as (k & _ & E). exact (leads_to_cycle _ _ _ _ _ C D _ _ E).
  - exists e. split; [reflexivity|]. exact (preprocess_errors fs cwd base A depth t e E).
Qed.
Print Assumptions C22_cycles_end_in_an_error.

(** Those are the only errors. *)
Theorem C22_errors :
  forall fs cwd base depth data e, is_abs cwd = true -> snd (preprocess fs cwd base depth data) = Raise e ->
    In e (map Exn ["RecursionTooDeepError"; "InvalidIncludeDirectoryError"; "FileNotFoundError"; "FileReadError"]).
Proof. intros fs cwd base depth data e A. exact (preprocess_errors fs cwd base A depth data e). Qed.
Print Assumptions C22_errors.

(** The usual include lines are recognised. *)
Theorem C22_include_lines :
  forall name, no_ws name -> name <> "" -> no_quote name ->
    includes ("#include " ++ name) name /\
    forall q, is_quote q = true -> includes ("#include " ++ String q (name ++ String q "")) name.
Proof. exact include_line. Qed.
Print Assumptions C22_include_lines.

Definition nl : string := String "010" "".
Definition ex_fs (p : string) : file :=
  if p =? "pol/a.inc" then Text ("one" ++ nl ++ "#include 'sub/b.inc'" ++ nl)
  else if p =? "pol/sub/b.inc" then Text "two  "
  else if p =? "pol/loop.inc" then Text "#include loop.inc"
  else if p =? "pol/../secret" then Text "secret" else Missing.
Example C22_example :
  preprocess ex_fs "/home/u" "pol" 5 ("#include ""a.inc""" ++ nl ++ "three")
    = (["pol/a.inc"; "pol/sub/b.inc"], Ok ["one"; "two"; "three"]) /\
  snd (preprocess ex_fs "/home/u" "pol" 2 "#include a.inc") = Raise (Exn "RecursionTooDeepError") /\
  preprocess ex_fs "/home/u" "pol" 5 "#include ../secret" = ([], Raise (Exn "InvalidIncludeDirectoryError")) /\
  preprocess ex_fs "/home/u" "pol" 5 "#include /home/u/polx/f" = ([], Raise (Exn "InvalidIncludeDirectoryError")) /\
  snd (preprocess ex_fs "/home/u" "pol" 5 "#include loop.inc") = Raise (Exn "RecursionTooDeepError") /\
  chain ex_fs "pol" "#include loop.inc" "#include loop.inc".
Proof.
  split; [vm_compute; reflexivity|]. split; [vm_compute; reflexivity|]. split; [vm_compute; reflexivity|].
  split; [vm_compute; reflexivity|]. split; [vm_compute; reflexivity|].
  apply CStep. exists "#include loop.inc", "loop.inc". split; [vm_compute; auto|]. split; vm_compute; reflexivity.
Qed.
