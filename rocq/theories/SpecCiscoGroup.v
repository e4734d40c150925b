(** Reading of Cisco configurations: network groups, port groups and access lists, section by
    section, as a device reads them. Independent of the code that writes or rewrites them. *)
From Verif Require Export SpecCisco ModelCiscoGroup.
Local Open Scope string_scope.
Local Open Scope list_scope.
Local Open Scope Z_scope.

(** ** Sections *)

Inductive citem :=
| CGroup (fam name : string) (members : list string)      (* a group of networks of a family *)
| CPorts (name : string) (members : list string)          (* a group of ports *)
| CAcl (fam head : string) (rules : list (list string))   (* an access list: its lines, word by word *)
| COther (line : string).
Inductive cmode :=
| MOut
| MGroup (fam name : string) (members : list string)
| MPorts (name : string) (members : list string)
| MAcl (fam head : string) (rules : list (list string)).
(** The line that begins an access list, and the family of the list. *)
Definition acl_head (line : string) : option string :=
  if starts_with "ip access-list " line || starts_with "ipv4 access-list " line then Some "ipv4"
  else if starts_with "ipv6 access-list " line then Some "ipv6" else None.
(** The line that begins a group. *)
Definition group_head (line : string) : option cmode :=
  match split_ws line with
  | [w; k; name] => if String.eqb w "object-group" && String.eqb k "port" then Some (MPorts name []) else None
  | [w; k; fam; name] =>
      if String.eqb w "object-group" && String.eqb k "network" && str_in fam ["ipv4"; "ipv6"] then Some (MGroup fam name []) else None
  | _ => None
  end.
(** Sections end with exit; an access list also where the next one begins or the text ends.
    Blank lines are allowed outside groups. Nothing else is a configuration. *)
Fixpoint read_config (m : cmode) (lines : list string) : option (list citem) :=
  match lines with
  | [] => match m with MOut => Some [] | MAcl f h rs => Some [CAcl f h rs] | _ => None end
  | line :: rest =>
      match m with
      | MOut =>
          if is_empty line then read_config MOut rest
          else if starts_with "object-group" line then match group_head line with Some m => read_config m rest | None => None end
          else match acl_head line with
               | Some f => read_config (MAcl f line []) rest
               | None => option_map (cons (COther line)) (read_config MOut rest)
               end
      | MGroup f n ls =>
          if starts_with "exit" line then option_map (cons (CGroup f n ls)) (read_config MOut rest)
          else if starts_with "object-group" line || is_empty line then None
          else match acl_head line with Some _ => None | None => read_config (MGroup f n (ls ++ [line])) rest end
      | MPorts n ls =>
          if starts_with "exit" line then option_map (cons (CPorts n ls)) (read_config MOut rest)
          else if starts_with "object-group" line || is_empty line then None
          else match acl_head line with Some _ => None | None => read_config (MPorts n (ls ++ [line])) rest end
      | MAcl f h rs =>
          if starts_with "exit" line then option_map (cons (CAcl f h rs)) (read_config MOut rest)
          else if starts_with "object-group" line then None
          else match acl_head line with
               | Some f' => option_map (cons (CAcl f h rs)) (read_config (MAcl f' line []) rest)
               | None => match split_ws line with [] => read_config m rest | ws => read_config (MAcl f h (rs ++ [ws])) rest end
               end
      end
  end.
Definition config_of (text : string) : option (list citem) := read_config MOut (split_char newline text).

(** The groups of networks of a family, in order, and the members of one. *)
Definition groups_of (fam : string) (items : list citem) : list (string * list string) :=
  flat_map (fun i => match i with CGroup f n ls => if String.eqb f fam then [(n, ls)] else [] | _ => [] end) items.
Definition members (items : list citem) (fam name : string) : option (list string) := assoc name (groups_of fam items).
Definition acls_of (items : list citem) : list (string * string * list (list string)) :=
  flat_map (fun i => match i with CAcl f h rs => [(f, h, rs)] | _ => [] end) items.
(** Everything that is neither a group of networks nor an access list. *)
Definition rest_of (items : list citem) : list citem := filter (fun i => match i with CGroup _ _ _ | CAcl _ _ _ => false | _ => true end) items.

(** ** Two configurations that mean the same *)

(** Lines that agree word by word; a name after net-group has the same members on both sides,
    and names without members do not change. *)
Fixpoint same_words (before after : string -> option (list string)) (ref : bool) (ws ws' : list string) : Prop :=
  match ws, ws' with
  | [], [] => True
  | w :: r, w' :: r' =>
      (if ref then before w = after w' /\ (before w = None -> w' = w) else w' = w) /\ same_words before after (String.eqb w "net-group") r r'
  | _, _ => False
  end.
Definition same_acl (items items' : list citem) (a a' : string * string * list (list string)) : Prop :=
  fst a' = fst a /\ Forall2 (same_words (members items (fst (fst a))) (members items' (fst (fst a))) false) (snd a) (snd a').
Definition same_config (items items' : list citem) : Prop :=
  Forall2 (same_acl items items') (acls_of items) (acls_of items') /\ rest_of items' = rest_of items /\
  forall fam g, In g (groups_of fam items') -> In g (groups_of fam items).
(** No group is defined twice in a family, and none is called net-group. *)
Definition names_once (items : list citem) : Prop :=
  forall fam, In fam ["ipv4"; "ipv6"] -> NoDup (map fst (groups_of fam items)) /\ members items fam "net-group" = None.
(** Groups with the same members are one group. *)
Definition no_duplicates (items : list citem) : Prop :=
  forall fam n n' ls, In fam ["ipv4"; "ipv6"] -> In (n, ls) (groups_of fam items) -> In (n', ls) (groups_of fam items) -> n = n'.
(** Lines end with line feeds only. *)
Definition plain_lines (text : string) : Prop := forall_char (fun c => negb (line_end c) || Ascii.eqb c newline) text = true.
(** Access lists for IPv4 begin with 'ip access-list extended' or 'ipv4 access-list'. *)
Definition known_heads (text : string) : Prop :=
  forall line, In line (split_char newline text) -> starts_with "ip access-list " line = true -> starts_with "ip access-list extended " line = true.
