(** What definition tables mean, independently of the lookup code. *)
From Coq Require Import Relations.
From Verif Require Export SpecBase SpecIP ModelNaming.
Local Open Scope string_scope.

(** A single word: non-empty, no whitespace, no comment sign. *)
Definition occurs (c : ascii) (s : string) : Prop := In c (list_ascii_of_string s).
Definition word (v : string) : Prop :=
  v <> "" /\ (forall c, occurs c v -> is_ws c = false) /\ ~ occurs "#" v.

(** How a stored item is written: "value" or "value # comment". *)
Inductive item_says : string -> string -> string -> Prop :=
| is_bare v : word v -> item_says v v ""
| is_commented v c : word v -> item_says (v ++ " # " ++ c) v (lstrip c).

(** Tables as the loader builds them: one entry per name, readable items. *)
Definition well_formed (t : table) : Prop :=
  NoDup (map fst t) /\
  forall k items i, In (k, items) t -> In i items -> exists v c, item_says i v c.

Definition entry_value (t : table) (T v c : string) : Prop :=
  exists items i, In (T, items) t /\ In i items /\ item_says i v c.

(** Letters, digits, '-' and '_' only. *)
Definition token_shape (v : string) : Prop :=
  v <> "" /\ forall c, occurs c v ->
    is_alpha c = true \/ is_digit c = true \/ c = "-"%char \/ c = "_"%char.

Section Networks.
  Context (parse_ip : string -> option net).
  (** The value names another definition (as opposed to being an address). *)
  Definition names_token (v : string) : Prop := token_shape v \/ parse_ip v = None.

  (** [n] is one of the networks [T] stands for; it carries the comment of its line
      and the name of the definition it is written in. *)
  Inductive net_in (t : table) : string -> net -> Prop :=
  | ni_here T v c n : entry_value t T v c -> ~ names_token v -> parse_ip v = Some n ->
      net_in t T (label c T n)
  | ni_nested T v c m : entry_value t T v c -> names_token v -> net_in t v m -> net_in t T m.

  (** [T] mentions [U]. *)
  Definition net_ref (t : table) (T U : string) : Prop :=
    exists c, entry_value t T U c /\ names_token U.
  Definition net_reach (t : table) : string -> string -> Prop := clos_refl_trans _ (net_ref t).
  Definition net_cycle (t : table) (T : string) : Prop :=
    exists U, net_reach t T U /\ clos_trans _ (net_ref t) U U.
End Networks.

Definition has_definition (t : table) (T : string) : Prop := In T (map fst t).

(** Services: a value with a '/' is a port/protocol pair, any other names a service. *)
Inductive service_in (t : table) : string -> string -> Prop :=
| si_here T v c : entry_value t T v c -> occurs "/" v -> service_in t T v
| si_nested T v c s : entry_value t T v c -> ~ occurs "/" v -> service_in t v s -> service_in t T s.

(** [T] mentions another service [U]; mentioning itself is harmless. *)
Definition service_ref (t : table) (T U : string) : Prop :=
  exists c, entry_value t T U c /\ ~ occurs "/" U /\ U <> T.
Definition service_reach (t : table) : string -> string -> Prop := clos_refl_trans _ (service_ref t).
Definition service_cycle (t : table) (T : string) : Prop :=
  exists U, service_reach t T U /\ clos_trans _ (service_ref t) U U.

(** Character-code order on strings, strict. *)
Definition str_before (a b : string) : Prop :=
  (exists q, q <> "" /\ b = a ++ q) \/
  (exists p c d x y, a = p ++ String c x /\ b = p ++ String d y /\
     (nat_of_ascii c < nat_of_ascii d)%nat).

(** [T] contains the value [q], directly or through other definitions. *)
Definition value_ref (t : table) (q T : string) : Prop := exists c, entry_value t T q c.
Definition contains_value (t : table) : string -> string -> Prop := clos_trans _ (value_ref t).

(** [s] reads "p/q" (or "p/q/..."): its port part and protocol part. *)
Definition pair_text (s p q : string) : Prop :=
  ~ occurs "/" p /\ ~ occurs "/" q /\
  (s = p ++ "/" ++ q \/ exists r, s = p ++ "/" ++ q ++ "/" ++ r).
(** [T] has port text [p] for protocol [proto], protocols compared without case. *)
Definition service_port (t : table) (T proto p : string) : Prop :=
  exists s q, service_in t T s /\ pair_text s p q /\ upper q = upper proto.
(** The port range a port text denotes: "n" or "n-m". *)
Definition range_text (p : string) (lo hi : Z) : Prop :=
  (numeral_value p = Some lo /\ hi = lo) \/
  (exists a b, numeral_value a = Some lo /\ numeral_value b = Some hi /\
     (p = a ++ "-" ++ b \/ exists r, p = a ++ "-" ++ b ++ "-" ++ r)).

(** ** Definition files, as a document *)

(** A value that the loader takes for the name of another definition. *)
Definition looks_like_token (v : string) : Prop :=
  (exists c r, v = String c r /\ is_alpha c = true) /\ ~ occurs ":" v.
(** A service value: a name, "n/proto" or "n-m/proto". *)
Definition all_digits (s : string) : Prop := s <> "" /\ forall c, occurs c s -> is_digit c = true.
Definition proto_shape (s : string) : Prop :=
  s <> "" /\ forall c, occurs c s -> is_alpha c = true \/ is_digit c = true \/ c = "_"%char.
Definition service_shape (v : string) : Prop :=
  token_shape v \/
  exists p q, v = p ++ "/" ++ q /\ proto_shape q /\
    (all_digits p \/ exists a b, p = a ++ "-" ++ b /\ all_digits a /\ all_digits b).

(** A line: a definition, a continuation, or nothing (blank or comment only). *)
Inductive doc_line :=
| Def (name : string) (values : list string) (comment : option string)
| More (values : list string) (comment : option string)
| Nothing (text : string).

Definition comment_text (c : option string) : string :=
  match c with None => "" | Some c => " #" ++ c end.
Definition line_text (l : doc_line) : string :=
  match l with
  | Def n vs c => n ++ " = " ++ join " " vs ++ comment_text c
  | More vs c => join " " vs ++ comment_text c
  | Nothing s => s
  end.
Definition item_text (c : option string) (v : string) : string :=
  match c with None => v | Some c => v ++ " # " ++ c end.

(** Values are words without '='; comments are not empty and do not end in whitespace. *)
Definition good_value (v : string) : Prop := word v /\ ~ occurs "=" v.
Definition good_comment (c : option string) : Prop :=
  match c with None => True | Some c => c <> "" /\ rstrip c = c end.
Definition good_line (services : bool) (l : doc_line) : Prop :=
  match l with
  | Def n vs c => good_value n /\ vs <> [] /\ Forall good_value vs /\ good_comment c /\
      (services = true -> Forall service_shape vs)
  | More vs c => vs <> [] /\ Forall good_value vs /\ good_comment c
  | Nothing s => strip s = "" \/ exists r, strip s = "#" ++ r
  end.

(** What a document defines: continuation lines extend the last definition. *)
Definition extend_last (t : table) (items : list string) : table :=
  match rev t with
  | [] => []
  | (n, old) :: t' => (rev t' ++ [(n, old ++ items)])%list
  end.
Fixpoint meaning (t : table) (doc : list doc_line) : table :=
  match doc with
  | [] => t
  | Def n vs c :: doc' => meaning (t ++ [(n, map (item_text c) vs)])%list doc'
  | More vs c :: doc' => meaning (extend_last t (map (item_text c) vs)) doc'
  | Nothing _ :: doc' => meaning t doc'
  end.
Fixpoint doc_names (doc : list doc_line) : list string :=
  match doc with
  | [] => []
  | Def n _ _ :: doc' => n :: doc_names doc'
  | _ :: doc' => doc_names doc'
  end.
(** Names used on lines without a comment. *)
Definition line_uses (l : doc_line) : list string :=
  match l with
  | Def _ vs None | More vs None => vs
  | _ => []
  end.
Fixpoint starts_with_def (doc : list doc_line) : Prop :=
  match doc with
  | Nothing _ :: doc' => starts_with_def doc'
  | Def _ _ _ :: _ => True
  | More _ _ :: _ => False
  | [] => True
  end.
Definition good_doc (services : bool) (doc : list doc_line) : Prop :=
  Forall (good_line services) doc /\ NoDup (doc_names doc) /\ starts_with_def doc /\
  forall l v, In l doc -> In v (line_uses l) -> looks_like_token v -> In v (doc_names doc).

(** The first line that is neither blank nor a comment is a definition. *)
Fixpoint file_starts_with_def (lines : list string) : Prop :=
  match lines with
  | [] => True
  | l :: lines' =>
      if is_empty (strip l) || starts_with "#" (strip l) then file_starts_with_def lines'
      else occurs "=" (before_char "#" (strip l))
  end.
