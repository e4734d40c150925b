(** Specification vocabulary for OpenConfig access lists: how a device reads the tree of the
    OpenConfig ACL schema, and what the policy asks for.  Nothing here is taken from the code
    that writes the tree. *)
From Verif Require Export ModelOpenConfig SpecGce.
Local Open Scope string_scope.
Local Open Scope list_scope.
Local Open Scope Z_scope.

(** ** Reading trees *)

(** The value under a path of keys. *)
Fixpoint path (keys : list string) (j : json) : option json :=
  match keys with
  | [] => Some j
  | k :: rest => match j with
                 | JDict d => match assoc k d with Some x => path rest x | None => None end
                 | _ => None
                 end
  end.
(** A condition that is not given does not restrict. *)
Definition if_given (o : option json) (P : json -> Prop) : Prop := match o with None => True | Some j => P j end.

(** address/length *)
Definition oc_address_says (x : ipaddr) (j : json) : Prop := exists s, j = JStr s /\ range_has x s.
(** n or "lo..hi" *)
Definition oc_port_says (n : Z) (j : json) : Prop :=
  j = JNum n \/
  exists a b lo hi, j = JStr (append a (append ".." b)) /\ numeral_value a = Some lo /\ numeral_value b = Some hi /\ lo <= n <= hi.
Definition oc_protocol_says (p : packet) (j : json) : Prop := exists n, j = JNum n /\ In (p_proto p, n) proto_map.
Definition oc_detail_says (p : packet) (j : json) : Prop :=
  (j = JStr "TCP_ESTABLISHED" /\ p_proto p = "tcp" /\ p_option p "tcp-established") \/
  (j = JStr "TCP_INITIAL" /\ p_proto p = "tcp" /\ p_option p "initial") \/
  (j = JStr "FRAGMENT" /\ p_option p "is-fragment").
Definition family_key (v : ver) : string := match v with V4 => "ipv4" | V6 => "ipv6" end.
(** The packet meets every condition of the entry. *)
Record entry_matches (v : ver) (e : json) (p : packet) : Prop := {
  em_src : if_given (path [family_key v; "config"; "source-address"] e) (oc_address_says (p_src p));
  em_dst : if_given (path [family_key v; "config"; "destination-address"] e) (oc_address_says (p_dst p));
  em_proto : if_given (path [family_key v; "config"; "protocol"] e) (oc_protocol_says p);
  em_sport : if_given (path ["transport"; "config"; "source-port"] e) (oc_port_says (p_sport p));
  em_dport : if_given (path ["transport"; "config"; "destination-port"] e) (oc_port_says (p_dport p));
  em_detail : if_given (path ["transport"; "config"; "detail-mode"] e) (fun m => m = JStr "BUILTIN" /\
    exists d, path ["transport"; "config"; "builtin-detail"] e = Some d /\ oc_detail_says p d) }.
Definition oc_entry_says (v : ver) (e : json) (p : packet) (outcome : string) : Prop :=
  entry_matches v e p /\ path ["actions"; "config"; "forwarding-action"] e = Some (JStr outcome).
Definition list_type (v : ver) : string := match v with V4 => "ACL_IPV4" | V6 => "ACL_IPV6" end.
Definition entries_of (set : json) (es : list json) : Prop := path ["acl-entries"; "acl-entry"] set = Some (JList es).
(** The entries are read in the order of their numbers: some entry gives the outcome, and so
    does every matching entry with a smaller number. *)
Definition oc_set_decides (set : json) (p : packet) (outcome : string) : Prop :=
  exists v es e n, path ["config"; "type"] set = Some (JStr (list_type v)) /\ entries_of set es /\
    In e es /\ oc_entry_says v e p outcome /\ path ["sequence-id"] e = Some (JNum n) /\
    forall e' o' n', In e' es -> oc_entry_says v e' p o' -> path ["sequence-id"] e' = Some (JNum n') -> n' < n -> o' = outcome.

(** ** Reading policies *)

Definition oc_outcome (action outcome : string) : Prop :=
  (action = "accept" /\ outcome = "ACCEPT") \/ (action = "deny" /\ outcome = "DROP") \/ (action = "reject" /\ outcome = "REJECT").
(** The first term in force that matches decides. *)
Definition oc_policy_decides (today : Z) (terms : list term) (p : packet) (outcome : string) : Prop :=
  first_says (fun t o => in_force today t /\ term_matches t p /\ exists a r, t_action t = a :: r /\ oc_outcome a o) terms outcome.
(** The families that a header asks for: its options name at most one of them. *)
Definition family_words : list string := ["inet"; "inet6"; "mixed"].
Definition clear_options (options : list string) : Prop :=
  NoDup options /\ forall a b, In a family_words -> In b family_words -> In a options -> In b options -> a = b.
Definition families_wanted (options : list string) : list ver :=
  if str_in "mixed" options then [V4; V6] else if str_in "inet6" options then [V6] else [V4].
(** The access lists that a policy asks for: for each header and family one. *)
Definition lists_wanted (fs : list (list string * list term)) : list (list string * ver * list term) :=
  flat_map (fun f => map (fun v => (fst f, v, snd f)) (families_wanted (fst f))) fs.
(** The name of the list: the first option that is no family, with 4 or 6 for a mixed header. *)
Definition list_name (options : list string) (v : ver) (name : string) : Prop :=
  exists first rest, filter (fun o => negb (str_in o family_words)) options = first :: rest /\
    name = append first (if str_in "mixed" options then match v with V4 => "4" | V6 => "6" end else "").

(** Something of the addresses is left in the family, or none are asked for. *)
Definition side_present (v : ver) (inc exc : list net) : Prop :=
  (inc = [] /\ exc = []) \/ exists x, covered inc (v, x) /\ ~ covered exc (v, x).
Record oc_term_ok (v : ver) (t : term) : Prop := {
  ot_src : subtractable (t_source_address t) (t_source_address_exclude t) /\ side_present v (t_source_address t) (t_source_address_exclude t);
  ot_dst : subtractable (t_destination_address t) (t_destination_address_exclude t) /\
    side_present v (t_destination_address t) (t_destination_address_exclude t);
  (* no port 0 alone *)
  ot_ports : forall r, In r (t_source_port t ++ t_destination_port t) -> 0 <= fst r <= snd r /\ 0 < snd r;
  (* at most one kind of option, that the family and the protocols have *)
  ot_option : t_option t = [] \/
    ((forall o, In o (t_option t) -> o = "tcp-established" \/ o = "established") /\ t_protocol t = ["tcp"]) \/
    ((forall o, In o (t_option t) -> o = "initial") /\ t_protocol t = ["tcp"]) \/
    ((forall o, In o (t_option t) -> o = "is-fragment") /\ v = V4);
  (* accepted, but written nowhere *)
  ot_icmp : t_icmp_type t = [];
  (* only warned about, or not seen, by the check of supported keywords *)
  ot_warned : t_restrict_address_family t = None /\ t_source_tag t = [] /\ t_destination_tag t = [] /\ t_ttl t <> Some 0;
  (* never empty texts in a policy file *)
  ot_texts : t_source_interface t <> Some "" /\ t_destination_interface t <> Some "" }.

(** A packet that an access list of the family sees. *)
Record oc_traffic (v : ver) (p : packet) : Prop := {
  oq_src : fst (p_src p) = v /\ 0 <= snd (p_src p) < 2 ^ width v;
  oq_dst : fst (p_dst p) = v /\ 0 <= snd (p_dst p) < 2 ^ width v;
  oq_established : p_option p "tcp-established" <-> p_option p "established";
  oq_platform : p_platform p = "openconfig" }.
