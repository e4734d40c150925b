(** Reading of the commands for IP security policies of Windows, and what the objects they add say.
    Independent of the code that writes them. *)
From Verif Require Export ModelIpsec SpecWin.
From Verif Require Import SpecAclgen SpecGce.
Local Open Scope string_scope.
Local Open Scope list_scope.
Local Open Scope Z_scope.

(** ** Commands *)

(** An address that is missing is any; a port that is missing is any. *)
Record ips_match := mkIpsMatch { im_src : option string; im_dst : option string; im_sport : option Z; im_dport : option Z; im_proto : string }.
Inductive ips_command :=
  | IPolicy (name : string) | IList (name : string) | IAction (name action : string)
  | IFilter (list : string) (m : ips_match) | IRule (name policy list action : string).
(** address and length of the mask, or any *)
Definition read_end (addr mask : option string) : option (option string) :=
  match addr, mask with
  | Some a, None => if String.eqb a "any" then Some None else None
  | Some a, Some m => Some (Some (a ++ "/" ++ m)%string)
  | None, _ => None
  end.
Definition read_number (o : option string) : option (option Z) :=
  match o with
  | None => Some None
  | Some w => match numeral_value w with Some n => Some (Some n) | None => None end
  end.
Definition only_keys (keys : list string) (d : list (string * string)) : bool := forallb (fun x => str_in (fst x) keys) d && distinct (map fst d).
(** A filter; ports are only accepted with tcp and udp. *)
Definition read_match (d : list (string * string)) : option ips_command :=
  match assoc "filterlist" d, assoc "mirrored" d, read_end (assoc "srcaddr" d) (assoc "srcmask" d), read_end (assoc "dstaddr" d) (assoc "dstmask" d),
        read_number (assoc "srcport" d), read_number (assoc "dstport" d), assoc "protocol" d with
  | Some l, Some y, Some s, Some t, Some sp, Some dp, Some q =>
      if String.eqb y "yes" && str_in q ["any"; "icmp"; "tcp"; "udp"]
         && ((match sp, dp with None, None => true | _, _ => false end) || str_in q ["tcp"; "udp"])
      then Some (IFilter l (mkIpsMatch s t sp dp q)) else None
  | _, _, _, _, _, _, _ => None
  end.
Definition read_object (kind : string) (d : list (string * string)) : option ips_command :=
  if String.eqb kind "policy" then
    if only_keys ["name"; "assign"] d then match assoc "name" d with Some n => Some (IPolicy n) | None => None end else None
  else if String.eqb kind "filterlist" then
    if only_keys ["name"] d then match assoc "name" d with Some n => Some (IList n) | None => None end else None
  else if String.eqb kind "filteraction" then
    if only_keys ["name"; "action"] d then
      match assoc "name" d, assoc "action" d with
      | Some n, Some a => if str_in a ["permit"; "block"] then Some (IAction n a) else None
      | _, _ => None
      end
    else None
  else if String.eqb kind "filter" then
    if only_keys ["filterlist"; "mirrored"; "srcaddr"; "srcmask"; "dstaddr"; "dstmask"; "srcport"; "dstport"; "protocol"] d then read_match d else None
  else if String.eqb kind "rule" then
    if only_keys ["name"; "policy"; "filterlist"; "filteraction"] d then
      match assoc "name" d, assoc "policy" d, assoc "filterlist" d, assoc "filteraction" d with
      | Some n, Some p, Some l, Some a => Some (IRule n p l a)
      | _, _, _, _ => None
      end
    else None
  else None.
(** netsh ipsec static add, the kind of the object, and what it is *)
Definition ips_read_command (ws : list string) : option ips_command :=
  if list_str_eqb (firstn 4 ws) ["netsh"; "ipsec"; "static"; "add"] then
    match skipn 4 ws with
    | kind :: rest => match settings rest with Some d => read_object kind d | None => None end
    | [] => None
    end
  else None.
Definition ips_read (lines : list string) : option (list ips_command) := all_some (map (fun l => ips_read_command (split_ws l)) (filter is_command lines)).

(** ** What they say *)

(** The answers to a packet go the other way. *)
Definition mirror (p : packet) : packet :=
  mkPacket (p_dst p) (p_src p) (p_proto p) (p_dport p) (p_sport p) (p_icmp_type p) (p_icmp_code p) (p_option p) (p_dst_prefix p) (p_src_prefix p)
    (p_dst_tag p) (p_src_tag p) (p_precedence p) (p_class p) (p_fragment p) (p_hops p) (p_length p) (p_ttl p) (p_ether p) (p_traffic p) (p_dscp p)
    (p_dst_zone p) (p_src_zone p) (p_dst_if p) (p_src_if p) (p_family p) (p_platform p).
Definition end_says (x : ipaddr) (o : option string) : Prop := forall w, o = Some w -> prefix_says (fst x) w (snd x).
Definition match_says (m : ips_match) (p : packet) : Prop :=
  end_says (p_src p) (im_src m) /\ end_says (p_dst p) (im_dst m) /\ (forall n, im_sport m = Some n -> p_sport p = n) /\ (forall n, im_dport m = Some n -> p_dport p = n) /\
  (im_proto m = "any" \/ im_proto m = p_proto p).
(** Filters are mirrored. *)
Definition list_has (cmds : list ips_command) (l : string) (p : packet) : Prop :=
  exists m, In (IFilter l m) cmds /\ (match_says m p \/ match_says m (mirror p)).
(** An object that is there already is not added again. *)
Definition action_is (cmds : list ips_command) (name o : string) : Prop :=
  exists before after, cmds = before ++ IAction name o :: after /\ forall o', ~ In (IAction name o') before.
(** Some rule of this policy has this verdict for the packet. *)
Definition ips_says (cmds : list ips_command) (policy : string) (p : packet) (o : string) : Prop :=
  exists name l a, In (IRule name policy l a) cmds /\ list_has cmds l p /\ action_is cmds a o.

(** ** What the policy file asks for *)

Definition ips_verdict (a : string) : option string := if String.eqb a "accept" then Some "permit" else if String.eqb a "deny" then Some "block" else None.
Definition ips_term_says (today : Z) (policy : string) (p : packet) (x : win_header * term) (outcome : string) : Prop :=
  let (h, t) := x in
  exists opts a, win_asks h policy opts /\ in_force today t /\ meant_for "windows_ipsec" t /\ not_established t /\
    (term_matches t p \/ term_matches t (mirror p)) /\ t_action t = [a] /\ ips_verdict a = Some outcome.

(** ** Policies that can be rendered exactly *)

Record ips_term_ok (t : term) : Prop := {
  io_name : forall_char (fun c => negb (is_ws c)) (t_name t) = true;
  io_protocol : forall q, In q (t_protocol t) -> In q ["tcp"; "udp"; "icmp"; "icmpv6"];
  (* terms with ICMP for IPv6 are left out as a whole *)
  io_icmp : In "icmpv6" (t_protocol t) -> t_protocol t = ["icmpv6"];
  io_ports : (t_source_port t <> [] \/ t_destination_port t <> []) -> t_protocol t <> [] /\ forall q, In q (t_protocol t) -> In q ["tcp"; "udp"];
  (* only the last range is written, and not the port 0 *)
  io_range : forall l, In l [t_source_port t; t_destination_port t] -> l = [] \/ exists lo hi, l = [(lo, hi)] /\ 0 < lo;
  io_option : t_option t = [];
  io_address : valid_list (t_source_address t) /\ valid_list (t_destination_address t);
  io_warned : t_restrict_address_family t = None /\ t_source_tag t = [] /\ t_destination_tag t = [] /\ t_ttl t <> Some 0 /\
    t_source_interface t <> Some "" /\ t_destination_interface t <> Some "" }.
(** The first letter of the filter and the name of the term. *)
Definition ips_label (x : win_header * term) : string * string :=
  (match fst (fst x) with Some (name :: _) => slice_to name 1 | _ => "" end, t_name (snd x)).
Definition ips_terms (fs : list (win_header * list term)) : list (win_header * term) :=
  filter (fun x => match fst (fst x) with Some _ => true | None => false end) (win_terms_of fs).
Record ips_policy_ok (today : Z) (fs : list (win_header * list term)) : Prop := {
  ip_terms : forall h terms, In (h, terms) fs -> fst h <> None -> exists name opts, win_asks h name opts /\
    forall_char (fun c => negb (is_ws c)) name = true /\ name <> "" /\
    forall t, In t terms -> in_force today t -> meant_for "windows_ipsec" t -> not_established t -> ips_term_ok t;
  ip_labels : NoDup (map ips_label (ips_terms fs)) }.
Record ips_traffic (p : packet) : Prop := {
  it_family : fst (p_src p) = V4 /\ fst (p_dst p) = V4;
  it_src : 0 <= snd (p_src p) < 2 ^ 32;
  it_dst : 0 <= snd (p_dst p) < 2 ^ 32;
  it_icmp : p_proto p <> "icmpv6";
  it_platform : p_platform p = "windows_ipsec" }.
