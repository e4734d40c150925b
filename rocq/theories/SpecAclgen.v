(** What a run of aclgen is for: every output file holds the generated text. *)
From Verif Require Export ModelAclgen SpecBase.
From Coq Require Export Permutation.
Local Open Scope string_scope.
Local Open Scope list_scope.
Local Open Scope Z_scope.

(** Lines with repository tags do not count. *)
Definition tag_line (line : string) : Prop :=
  contains line "$Id:" \/ contains line "$Date:" \/ contains line "$Revision:".
Inductive without_tags : list string -> list string -> Prop :=
| wt_nil : without_tags [] []
| wt_tag l ls rs : tag_line l -> without_tags ls rs -> without_tags (l :: ls) rs
| wt_line l ls rs : ~ tag_line l -> without_tags ls rs -> without_tags (l :: ls) (l :: rs).
Definition lines_of (text : string) : list string := split_char newline text.
Definition same_but_tags (a b : string) : Prop :=
  exists rs, without_tags (lines_of a) rs /\ without_tags (lines_of b) rs.
(** No carriage return. *)
Definition plain_text (s : string) : Prop := has_char cr s = false.

(** The job has an output: a platform of its headers, its suffix and the generated text. *)
Definition has_output (j : job) (p : path) (text : string) (binary : bool) : Prop :=
  exists platforms platform suffix, j_parse j = Ok platforms /\ In platform platforms /\
    In (platform, suffix, binary) targets /\ j_gen j suffix = Ok text /\ p = (j_dir j, append (j_stem j) suffix).
(** No two outputs go to the same file with different contents. *)
Definition no_clash (jobs : list job) : Prop :=
  forall j1 j2 p t1 t2 b1 b2, In j1 jobs -> In j2 jobs -> has_output j1 p t1 b1 -> has_output j2 p t2 b2 -> t1 = t2 /\ b1 = b2.
Definition plain_outputs (jobs : list job) : Prop :=
  forall j p text b, In j jobs -> has_output j p text b -> plain_text text.

(** The disk is what a run is to achieve, starting from an earlier state. *)
Definition up_to_date (jobs : list job) (d : disk) : Prop :=
  forall j p text, In j jobs -> has_output j p text false -> exists c, d p = Some c /\ same_but_tags (universal_newlines c) text.
Definition only_outputs_changed (jobs : list job) (d d' : disk) : Prop :=
  forall p, d' p <> d p -> exists j text b, In j jobs /\ has_output j p text b.

(** Lists filled together: any interleaving. *)
Inductive interleaving {A} : list (list A) -> list A -> Prop :=
| il_done ls : Forall (eq []) ls -> interleaving ls []
| il_step l1 x l l2 r : interleaving (l1 ++ l :: l2) r -> interleaving (l1 ++ (x :: l) :: l2) (x :: r).

(** The disk after a crash while the files were being written: some are written, one may
    be cut short. *)
Inductive crash (d : disk) (ws : list (path * string)) : disk -> Prop :=
| crash_between ws1 ws2 : ws = ws1 ++ ws2 -> crash d ws (write_files d ws1)
| crash_within ws1 p a b ws2 : ws = ws1 ++ (p, append a b) :: ws2 -> crash d ws (write_file (write_files d ws1) p a).

(** ** Configuration *)

(** The last of the documents that mentions the key. *)
Fixpoint last_mention (k : string) (docs : list (option dict)) : option (option string) :=
  match docs with
  | [] => None
  | m :: rest =>
      match last_mention k rest with
      | Some v => Some v
      | None => match m with Some m => assoc k m | None => None end
      end
  end.
