(** Specification vocabulary for reading policy files line by line and searching them: what a
    file laid out in the usual way (one field on a line) says, and which terms a search asks
    for.  Nothing here is taken from the code that reads. *)
From Coq Require Import Relations.
From Verif Require Export ModelReader SpecParents.
Local Open Scope string_scope.
Local Open Scope list_scope.

(** ** Lines *)

Definition blank (s : string) : Prop := forall c, occurs c s -> is_ws c = true.
Definition solid (w : string) : Prop := w <> "" /\ forall c, occurs c w -> is_ws c = false.
(** The line consists of the words, with blanks around and between them. *)
Inductive spelled : string -> list string -> Prop :=
| sp_end b : blank b -> spelled b []
| sp_last b w : blank b -> solid w -> spelled (append b w) [w]
| sp_word b w c s ws : blank b -> solid w -> is_ws c = true -> spelled s ws -> spelled (append b (append w (String c s))) (w :: ws).
Definition quotes (l : string) : nat := List.length (filter (Ascii.eqb """") (list_ascii_of_string l)).
(** A line outside of texts in quotes, with its words. *)
Definition line_says (l : string) (ws : list string) : Prop := Nat.Even (quotes l) /\ spelled l ws.

Definition field_names : list string :=
  ["source-address::"; "destination-address::"; "source-port::"; "destination-port::"; "action::"; "option::"; "protocol::"].
(** Words that say nothing here: comments, blank lines, other fields. *)
Definition other (ws : list string) : Prop :=
  ~ In "}" ws /\ forall w rest, ws = w :: rest -> ~ In w (["header"; "term"; "target::"] ++ field_names).
(** Lines that say nothing, with texts in quotes over several lines. *)
Inductive quiet : list string -> Prop :=
| qu_nil : quiet []
| qu_line l ws rest : line_says l ws -> other ws -> quiet rest -> quiet (l :: rest)
| qu_text o m c ws rest : Nat.Odd (quotes o) -> Forall (fun l => Nat.Even (quotes l)) m -> Nat.Odd (quotes c) ->
    spelled c ws -> other ws -> quiet rest -> quiet (o :: m ++ c :: rest).
Definition closing (l : string) : Prop := exists ws, line_says l ("}" :: ws).

(** ** Blocks *)

(** The rest of a header, with the names on its target lines. *)
Inductive header_body : list string -> list string -> Prop :=
| hb_end l : closing l -> header_body [l] []
| hb_quiet q rest names : quiet q -> header_body rest names -> header_body (q ++ rest) names
| hb_target l platform name options rest names : line_says l ("target::" :: platform :: name :: options) -> ~ In "}" (platform :: name :: options) ->
    header_body rest names -> header_body (l :: rest) (name :: names).
Definition header_block (lines : list string) (names : list string) : Prop :=
  exists l ws body, lines = l :: body /\ line_says l ("header" :: ws) /\ ~ In "}" ws /\ header_body body names.
(** The rest of a term, with its fields. *)
Definition fields : Type := list (string * list string).
Inductive term_body : list string -> fields -> Prop :=
| tb_end l : closing l -> term_body [l] []
| tb_quiet q rest fs : quiet q -> term_body rest fs -> term_body (q ++ rest) fs
| tb_field l key values rest fs : In key field_names -> line_says l (key :: values) -> ~ In "}" values ->
    term_body rest fs -> term_body (l :: rest) ((key, values) :: fs).
Inductive term_blocks : list string -> list (string * fields) -> Prop :=
| tbs_end q : quiet q -> term_blocks q []
| tbs_term q l name ws body fs rest ts : quiet q -> line_says l ("term" :: name :: ws) -> ~ In "}" (name :: ws) -> term_body body fs ->
    term_blocks rest ts -> term_blocks (q ++ l :: body ++ rest) ((name, fs) :: ts).
(** A file: headers, each with the terms after it. *)
Inductive file_says : list string -> list (list string * list (string * fields)) -> Prop :=
| fl_end q : quiet q -> file_says q []
| fl_filter q h b rest names ts doc : quiet q -> header_block h names -> term_blocks b ts -> file_says rest doc ->
    file_says (q ++ h ++ b ++ rest) ((names, ts) :: doc).
(** Every header names a filter that is not the one before it. *)
Fixpoint apart (before : string) (doc : list (list string * list (string * fields))) : Prop :=
  match doc with
  | [] => True
  | (names, _) :: doc' => (exists n, In n names /\ n <> before) /\ apart (last names "") doc'
  end.

(** ** What was read *)

Definition gathered (key : string) (fs : fields) : list string := flat_map (fun e => if String.eqb (fst e) key then snd e else []) fs.
Definition term_read (e : string * fields) (t : rterm) : Prop :=
  rt_name t = fst e /\ rt_source t = gathered "source-address::" (snd e) /\ rt_destination t = gathered "destination-address::" (snd e) /\
  rt_sport t = gathered "source-port::" (snd e) /\ rt_dport t = gathered "destination-port::" (snd e) /\ rt_action t = gathered "action::" (snd e) /\
  rt_option t = gathered "option::" (snd e) /\ rt_protocol t = gathered "protocol::" (snd e).
Definition filter_read (e : list string * list (string * fields)) (f : rfilter) : Prop :=
  rf_name f = last (fst e) "" /\ Forall2 term_read (snd e) (rf_terms f).

(** ** Searching *)

(** The definition contains the address, itself or through a definition that it lists. *)
Definition contains_address (parse_ip : string -> option net) (t : table) (n : net) (T : string) : Prop :=
  exists B, lists_address parse_ip t B n /\ alpha_name B /\ (T = B \/ clos_trans _ (named_ref t) B T).
(** Nothing was asked, or a definition among [listed] contains what was asked; the ones for any
    address do not count. *)
Definition asks_service (t : table) (q : string) (listed : list string) : Prop :=
  q = "" \/ exists T, In T listed /\ contains_value t q T.
Definition asks_address (parse_ip : string -> option net) (t : table) (q : string) (listed : list string) : Prop :=
  q = "" \/ exists n T, parse_ip q = Some n /\ In T listed /\ contains_address parse_ip t n T /\ T <> "ANY" /\ T <> "RESERVED".
Definition term_asked (parse_ip : string -> option net) (services networks : table) (src dst dport sport : string) (t : rterm) : Prop :=
  asks_service services dport (rt_dport t) /\ asks_service services sport (rt_sport t) /\
  asks_address parse_ip networks dst (rt_destination t) /\ asks_address parse_ip networks src (rt_source t).
(** Some definition contains what was asked. *)
Definition known_service (t : table) (q : string) : Prop := q = "" \/ exists T, contains_value t q T.
Definition known_address (parse_ip : string -> option net) (t : table) (q : string) : Prop :=
  q = "" \/ digit_start q /\ forall n, parse_ip q = Some n ->
    (exists T, contains_address parse_ip t n T /\ T <> "ANY" /\ T <> "RESERVED") /\
    (contains_address parse_ip t n "RESERVED" -> contains_address parse_ip t n "ANY").
(** References between definitions are on lines without a comment. *)
Definition bare_references (t : table) : Prop := forall T v c, entry_value t T v c -> has_definition t v -> exists items, In (T, items) t /\ In v items.
