(** Meaning of access lists that refer to object groups, and the policies whose lists decide
    as their terms do. *)
From Verif Require Export SpecCiscoGroup.
Local Open Scope string_scope.
Local Open Scope list_scope.
Local Open Scope Z_scope.

(** ** Rules with groups *)

Definition family_name (v : ver) : string := match v with V4 => "ipv4" | V6 => "ipv6" end.
(** A member of a group of networks: one prefix. *)
Definition member_says (v : ver) (line : string) (x : Z) : Prop := exists w, split_ws line = [w] /\ prefix_says v w x.
(** The addresses of a group; a name that is defined again gains members. *)
Definition group_says (items : list citem) (v : ver) (name : string) (x : Z) : Prop :=
  exists ls line, In (CGroup (family_name v) name ls) items /\ In line ls /\ member_says v line x.
(** A member of a group of ports: eq or range. *)
Definition port_says (line : string) (x : Z) : Prop := split_ws line <> [] /\ snd (read_port (split_ws line)) = [] /\ fst (read_port (split_ws line)) x.
Definition port_group_says (items : list citem) (name : string) (x : Z) : Prop :=
  exists ls line, In (CPorts name ls) items /\ In line ls /\ port_says line x.
(** The source or destination of a rule. *)
Definition read_side (items : list citem) (v : ver) (ws : list string) : option ((Z -> Prop) * list string) :=
  match ws with
  | w :: name :: r => if String.eqb w "net-group" then Some (group_says items v name, r) else read_address v ws
  | _ => read_address v ws
  end.
Definition read_side_port (items : list citem) (ws : list string) : (Z -> Prop) * list string :=
  match ws with
  | w :: name :: r => if String.eqb w "port-group" then (port_group_says items name, r) else read_port ws
  | _ => read_port ws
  end.
(** The rule has this action and matches the packet. *)
Definition rule_matches (items : list citem) (v : ver) (action : string) (ws : list string) (p : packet) : Prop :=
  match ws with
  | a :: proto :: ws =>
      a = action /\ In a ["permit"; "deny"] /\
      match read_side items v ws with
      | None => False
      | Some (src, ws) =>
          let (sport, ws) := read_side_port items ws in
          match read_side items v ws with
          | None => False
          | Some (dst, ws) =>
              let (dport, ws) := read_side_port items ws in
              let (ty, ws) := read_number ws in
              let (co, ws) := read_number ws in
              protocol_says v proto p /\ src (snd (p_src p)) /\ sport (p_sport p) /\
              dst (snd (p_dst p)) /\ dport (p_dport p) /\ type_says v ty p /\ code_says co p /\ options_say ws p
          end
      end
  | _ => False
  end.
(** The outcome of the rules of a list. *)
Definition rules_decide (items : list citem) (v : ver) (rules : list (list string)) (p : packet) (outcome : string) : Prop :=
  first_says (fun ws a => rule_matches items v a ws p) rules outcome.

(** ** Policies *)

(** A word: not empty, no blanks. *)
Definition one_word (w : string) : Prop := split_ws w = [w].
(** The name by which the first network of a side was given. *)
Definition first_name (l : list net) : string := match l with [] => "" | n :: _ => nptoken n end.
(** A side of a term: its first address of the family has the name of its first address. *)
Definition side_ok (v : ver) (l : list net) : Prop :=
  valid_list l /\ (l <> [] -> one_word (first_name l) /\ first_name l <> "any") /\
  forall n r, filter (fun n => ver_eqb (nver n) v) l = n :: r -> nptoken n = first_name l.
Record group_term_ok (v : ver) (t : term) : Prop := {
  gt_only : only_cisco_conditions t;
  gt_plain : t_option t = [] /\ t_icmp_type t = [] /\ t_icmp_code t = [] /\ t_dscp_match t = [] /\
             t_source_address_exclude t = [] /\ t_destination_address_exclude t = [] /\ t_restrict_address_family t = None;
  gt_action : exists a r, t_action t = a :: r /\ In a ["accept"; "deny"; "reject"; "reject-with-tcp-rst"];
  gt_src : side_ok v (t_source_address t);
  gt_dst : side_ok v (t_destination_address t);
  gt_protocol : forall q, In q (t_protocol t) -> In q (map fst proto_map) /\ q <> "all" /\ (v = V6 -> q <> "icmp");
  gt_ports : forall r, In r (t_source_port t ++ t_destination_port t) -> 0 <= fst r /\ 0 <= snd r;
  gt_name : has_char newline (t_name t) = false }.
(** A header of type object-group or object-group-inet6, with flags. *)
Definition group_flags : list string := ["noverbose"; "remove_duplicate_network_objectgroups"].
Definition group_type (v : ver) : string := match v with V4 => "object-group" | V6 => "object-group-inet6" end.
Definition group_header (h : cheader) (v : ver) (name : string) (flags : list string) : Prop :=
  ch_options h = name :: group_type v :: flags /\ NoDup flags /\ incl flags group_flags /\
  ~ In name ("configure_replace_compatible" :: group_flags) /\ has_char newline name = false.
(** The sides of the terms in force of the headers of a family. *)
Definition policy_side (today : Z) (hs : list (cheader * list term)) (v : ver) (l : list net) : Prop :=
  exists h terms name flags t, In (h, terms) hs /\ group_header h v name flags /\ In t terms /\ in_force today t /\
    In l [t_source_address t; t_destination_address t].
(** Each header is one of those, with such terms; networks with the same name are the same
    networks. *)
Definition group_policy_ok (k : cisco_class) (today : Z) (hs : list (cheader * list term)) : Prop :=
  In k [class_ios; class_xr; class_nx] /\
  (forall h terms, In (h, terms) hs -> exists v name flags, group_header h v name flags /\
     forall t, In t terms -> in_force today t -> group_term_ok v t /\ (k = class_nx -> t_platform t = [] /\ t_platform_exclude t = [])) /\
  (forall v l l' x, policy_side today hs v l -> policy_side today hs v l' -> l <> [] -> l' <> [] -> first_name l = first_name l' ->
     covered l (v, x) -> covered l' (v, x)).
(** The head of the list of a header. *)
Definition group_list_head (k : cisco_class) (v : ver) (name : string) : string :=
  match v with
  | V4 => if String.eqb (k_platform k) "ciscoxr" then ("ipv4 access-list " ++ name)%string
          else if String.eqb (k_platform k) "cisconx" then ("ip access-list " ++ name)%string
          else ("ip access-list extended " ++ name)%string
  | V6 => ("ipv6 access-list " ++ name)%string
  end.
(** Traffic of a family on a device of the platform. *)
Definition group_traffic (k : cisco_class) (v : ver) (p : packet) : Prop :=
  fst (p_src p) = v /\ 0 <= snd (p_src p) < 2 ^ width v /\ fst (p_dst p) = v /\ 0 <= snd (p_dst p) < 2 ^ width v /\
  p_platform p = k_platform k.
(** The list of a header decides as its terms do. *)
Definition list_decides (k : cisco_class) (today : Z) (items : list citem) (f : cheader * list term) (a : string * string * list (list string)) : Prop :=
  exists v name flags, group_header (fst f) v name flags /\ fst (fst a) = family_name v /\ snd (fst a) = group_list_head k v name /\
    forall p, group_traffic k v p -> forall outcome,
      rules_decide items v (snd a) p outcome <-> terms_decide (fun t => in_force today t /\ term_matches t p) (snd f) outcome.
(** Headers of the same family have no network name in common. *)
Definition names_apart (today : Z) (hs : list (cheader * list term)) : Prop :=
  ForallOrdPairs (fun f f' => forall v l l', policy_side today [f] v l -> policy_side today [f'] v l' -> l <> [] -> l' <> [] -> first_name l <> first_name l') hs.
(** Names, options and comments have no line ends but line feeds. *)
Definition plain_texts (today : Z) (hs : list (cheader * list term)) : Prop :=
  forall h terms, In (h, terms) hs -> Forall plain_lines (ch_options h) /\ Forall plain_lines (ch_comment h) /\
    forall t, In t terms -> in_force today t -> plain_lines (t_name t) /\ Forall plain_lines (t_comment t).
