(** Reading of pcap filter expressions (pcap-filter(7)), and the policies that can be written
    as one. *)
From Verif Require Export ModelPcap SpecCisco SpecGen.
Local Open Scope string_scope.
Local Open Scope list_scope.
Local Open Scope Z_scope.

(** ** Words *)

Definition is_blank (c : ascii) : bool := Ascii.eqb c " " || Ascii.eqb c newline.
Definition is_sign (c : ascii) : bool := Ascii.eqb c "(" || Ascii.eqb c ")" || Ascii.eqb c "|" || Ascii.eqb c "&".
Definition flush (cur : string) : list string := if nonempty cur then [cur] else [].
(** Words between blanks; parentheses and the signs of arithmetic stand for themselves. *)
Fixpoint pc_words (cur s : string) : list string :=
  match s with
  | EmptyString => flush cur
  | String c r =>
      if is_blank c then flush cur ++ pc_words "" r
      else if is_sign c then flush cur ++ String c "" :: pc_words "" r
      else pc_words (append cur (String c "")) r
  end.

(** ** Flags *)

(** The bits of the TCP flags, and the names policies have for them. *)
Definition flag_bits : list (string * Z) := [("tcp-fin", 1); ("tcp-syn", 2); ("tcp-rst", 4); ("tcp-push", 8); ("tcp-ack", 16); ("tcp-urg", 32)].
Definition packet_flags : list (string * Z) := [("fin", 0); ("syn", 1); ("rst", 2); ("psh", 3); ("ack", 4); ("urg", 5)].
(** A term of arithmetic: names and parentheses, joined by & and by |, of which & binds more.
    A frame holds what stands before the last |, the product since, and whether a value is
    awaited. *)
Definition vframe : Type := (Z * Z * bool)%type.
Definition value_step (st : list vframe * vframe) (w : string) : option (list vframe * vframe) :=
  let '(stack, (ors, ands, awaited)) := st in
  let take x (f : vframe) := let '(ors, ands, awaited) := f in if awaited then Some (ors, Z.land ands x, false) else None in
  if String.eqb w "(" then if awaited then Some ((ors, ands, awaited) :: stack, (0, -1, true)) else None
  else if String.eqb w ")" then
    match stack with
    | f :: stack => if awaited then None else option_map (pair stack) (take (Z.lor ors ands) f)
    | [] => None
    end
  else if String.eqb w "&" then if awaited then None else Some (stack, (ors, ands, true))
  else if String.eqb w "|" then if awaited then None else Some (stack, (Z.lor ors ands, -1, true))
  else match assoc w flag_bits with Some n => option_map (pair stack) (take n (ors, ands, awaited)) | None => None end.
Fixpoint value_run (ws : list string) (st : list vframe * vframe) : option (list vframe * vframe) :=
  match ws with [] => Some st | w :: r => match value_step st w with Some st => value_run r st | None => None end end.
Definition value_of (ws : list string) : option Z :=
  match value_run ws ([], (0, -1, true)) with Some ([], (ors, ands, false)) => Some (Z.lor ors ands) | _ => None end.
(** The flags of a packet, masked by m, are w. *)
Definition flags_are (m w : Z) (p : packet) : Prop :=
  Z.land w m = w /\ forall f k, In (f, k) packet_flags -> Z.testbit m k = true -> (p_option p f <-> Z.testbit w k = true).

(** ** Primitives *)

Fixpoint split_at_word (sep : string) (l : list string) : option (list string * list string) :=
  match l with
  | [] => None
  | x :: r => if String.eqb x sep then Some ([], r) else option_map (fun y => (x :: fst y, snd y)) (split_at_word sep r)
  end.
Definition net_word (local : ipaddr -> Prop) (x : string) (a : ipaddr) : Prop :=
  if String.eqb x "localhost" then local a
  else if has_char ":" x then fst a = V6 /\ prefix_says V6 x (snd a) else fst a = V4 /\ prefix_says V4 x (snd a).
Definition port_protocols : list string := ["tcp"; "udp"; "sctp"].
Definition protocol_word (x : string) : option (packet -> Prop) :=
  match x with
  | String c r => if Ascii.eqb c "\" then Some (fun p => p_proto p = r) else option_map (fun n p => In (p_proto p, n) proto_map) (numeral_value x)
  | EmptyString => None
  end.
Definition primitive (local : ipaddr -> Prop) (ws : list string) : option (packet -> Prop) :=
  match ws with
  | [a] => if String.eqb a "icmp6" then Some (fun p => p_proto p = "icmpv6") else if String.eqb a "igrp" then Some (fun p => p_proto p = "igrp") else None
  | [a; x] => if String.eqb a "proto" then protocol_word x else None
  | [a; b; x] =>
      if String.eqb a "dst" && String.eqb b "net" then Some (fun p => net_word local x (p_dst p))
      else if String.eqb a "src" && String.eqb b "net" then Some (fun p => net_word local x (p_src p))
      else if String.eqb a "src" && String.eqb b "port" then option_map (fun n p => In (p_proto p) port_protocols /\ p_sport p = n) (numeral_value x)
      else if String.eqb a "dst" && String.eqb b "port" then option_map (fun n p => In (p_proto p) port_protocols /\ p_dport p = n) (numeral_value x)
      else if String.eqb a "src" && String.eqb b "portrange" then
        match map numeral_value (split_char "-" x) with [Some lo; Some hi] => Some (fun p => In (p_proto p) port_protocols /\ lo <= p_sport p <= hi) | _ => None end
      else if String.eqb a "dst" && String.eqb b "portrange" then
        match map numeral_value (split_char "-" x) with [Some lo; Some hi] => Some (fun p => In (p_proto p) port_protocols /\ lo <= p_dport p <= hi) | _ => None end
      else if String.eqb a "icmp[icmptype]" && String.eqb b "==" then option_map (fun n p => p_proto p = "icmp" /\ type_says V4 (Some n) p) (numeral_value x)
      else if String.eqb a "icmp[icmpcode]" && String.eqb b "==" then option_map (fun n p => p_proto p = "icmp" /\ p_icmp_code p = n) (numeral_value x)
      else None
  | a :: b :: r =>
      if String.eqb a "tcp[tcpflags]" && String.eqb b "&" then
        match split_at_word "==" r with
        | Some (x, y) =>
            match value_of x, value_of y with
            | Some m, Some w => Some (fun p => p_proto p = "tcp" /\ fst (p_src p) = V4 /\ flags_are m w p)
            | _, _ => None
            end
        | None => None
        end
      else None
  | [] => None
  end.

(** ** Expressions *)

(** An expression is read from left to right; and, or have the same precedence, not binds
    more, parentheses nest. A frame holds the condition so far, the operator after it, and
    whether the next condition is negated. *)
Record pframe := mkFrame { f_acc : option (packet -> Prop); f_op : option bool; f_not : bool }.
Definition empty_frame : pframe := mkFrame None None false.
Definition operand (c : packet -> Prop) (f : pframe) : option pframe :=
  let c := if f_not f then fun p => ~ c p else c in
  match f_acc f, f_op f with
  | None, None => Some (mkFrame (Some c) None false)
  | Some a, Some true => Some (mkFrame (Some (fun p => a p /\ c p)) None false)
  | Some a, Some false => Some (mkFrame (Some (fun p => a p \/ c p)) None false)
  | _, _ => None
  end.
Definition awaits (f : pframe) : bool := match f_acc f, f_op f with None, None | Some _, Some _ => true | _, _ => false end.
Definition pstate : Type := (list pframe * pframe * list string)%type.
Definition expr_step (local : ipaddr -> Prop) (st : pstate) (w : string) : option pstate :=
  let '(stack, f, ws) := st in
  let try ws := match primitive local ws with Some c => option_map (fun f => (stack, f, [])) (operand c f) | None => Some (stack, f, ws) end in
  if some ws then try (ws ++ [w])
  else if String.eqb w "(" then if awaits f then Some (f :: stack, empty_frame, []) else None
  else if String.eqb w ")" then
    match stack, f_acc f, awaits f with
    | g :: stack, Some c, false => option_map (fun f => (stack, f, [])) (operand c g)
    | _, _, _ => None
    end
  else if String.eqb w "and" then if awaits f then None else Some (stack, mkFrame (f_acc f) (Some true) false, [])
  else if String.eqb w "or" then if awaits f then None else Some (stack, mkFrame (f_acc f) (Some false) false, [])
  else if String.eqb w "not" then if awaits f then Some (stack, mkFrame (f_acc f) (f_op f) (negb (f_not f)), []) else None
  else if awaits f then try [w] else None.
Fixpoint expr_run (local : ipaddr -> Prop) (ws : list string) (st : pstate) : option pstate :=
  match ws with [] => Some st | w :: r => match expr_step local st w with Some st => expr_run local r st | None => None end end.
(** The packets that a filter selects; the empty filter selects all. *)
Definition read_pcap (local : ipaddr -> Prop) (text : string) : option (packet -> Prop) :=
  match pc_words "" text with
  | [] => Some (fun _ => True)
  | ws =>
      match expr_run local ws ([], empty_frame, []) with
      | Some ([], f, []) => if awaits f then None else f_acc f
      | _ => None
      end
  end.

(** ** What can be written *)

Definition only_pcap_conditions (t : term) : Prop :=
  t_address t = [] /\ t_address_exclude t = [] /\ t_port t = [] /\ t_protocol_except t = [] /\
  t_source_prefix t = [] /\ t_source_prefix_except t = [] /\ t_destination_prefix t = [] /\ t_destination_prefix_except t = [] /\
  t_source_tag t = [] /\ t_destination_tag t = [] /\ t_precedence t = [] /\ t_forwarding_class t = [] /\
  t_forwarding_class_except t = [] /\ t_fragment_offset t = None /\ t_packet_length t = None /\ t_hop_limit t = None /\ t_ttl t = None /\
  t_source_zone t = [] /\ t_destination_zone t = [] /\ t_ether_type t = [] /\ t_traffic_type t = [] /\ t_dscp_match t = [] /\
  t_dscp_except t = [] /\ t_source_interface t = None /\ t_destination_interface t = None /\ t_restrict_address_family t = None.
Definition pcap_known : list string := ["ah"; "esp"; "icmp"; "icmpv6"; "igmp"; "igrp"; "pim"; "tcp"; "udp"; "vrrp"].
(** The families of a header. *)
Definition pcap_families (af : string) : list ver := if String.eqb af "inet" then [V4] else if String.eqb af "inet6" then [V6] else [V4; V6].
Record pcap_term_ok (af : string) (t : term) : Prop := {
  pt_only : only_pcap_conditions t;
  pt_meant : meant_for "pcap" t;
  (* no conditions on the source, no exclusions *)
  pt_src : t_source_address t = [] /\ t_source_address_exclude t = [];
  pt_dst : valid_list (t_destination_address t) /\ t_destination_address_exclude t = [] /\ forall n, In n (t_destination_address t) -> ~ (nver n = V6 /\ nlen n = 0);
  pt_protocol : forall q, In q (t_protocol t) -> In q pcap_known;
  pt_ports : forall r, In r (t_source_port t ++ t_destination_port t) -> 0 <= fst r <= snd r /\ t_protocol t <> [] /\ forall q, In q (t_protocol t) -> In q ["tcp"; "udp"];
  pt_types : (t_icmp_type t <> [] -> t_protocol t = ["icmp"]) /\ (forall ty, In ty (t_icmp_type t) -> In ty (map fst icmp_type4)) /\
    (t_icmp_code t = [] \/ exists c, t_icmp_code t = [c] /\ 0 <= c /\ t_icmp_type t <> []);
  pt_option : t_option t <> [] -> t_protocol t = ["tcp"] /\ pcap_families af = [V4] /\
    forall o, In o (t_option t) -> In o ("tcp-established" :: map fst packet_flags) }.
(** Something is asked of a packet. *)
Definition has_condition (t : term) : Prop :=
  t_destination_address t <> [] \/ t_protocol t <> [].
(** Packets of the families of the header, on the way its direction says; an established
    connection is one whose packets have the flag ack. *)
Definition pcap_traffic (local : ipaddr -> Prop) (c : pcap_cfg) (p : packet) : Prop :=
  (exists v, In v (pcap_families (pc_af c)) /\ fst (p_src p) = v /\ fst (p_dst p) = v /\ 0 <= snd (p_dst p) < 2 ^ width v) /\
  (pc_direction c = "in" -> local (p_dst p)) /\ (pc_direction c = "out" -> local (p_src p)) /\
  (p_option p "tcp-established" <-> p_option p "ack") /\ p_platform p = "pcap".

(** ** Policies *)

Definition accepts (t : term) : Prop := exists r, t_action t = "accept" :: r.
Definition rejects (t : term) : Prop := exists a r, t_action t = a :: r /\ In a ["deny"; "reject"].
(** The term names no destination, or one of the families of the header. *)
Definition has_family (af : string) (t : term) : Prop :=
  t_destination_address t = [] \/ exists n, In n (t_destination_address t) /\ In (nver n) (pcap_families af).
(** The family and the direction that a header asks for; none is said to stand for both. *)
Definition header_cfg (options : list string) : pcap_cfg :=
  mkPcap (if str_in "inet" options then "inet" else if str_in "inet6" options then "inet6" else "mixed")
         (if str_in "in" options then "in" else if str_in "out" options then "out" else "").
(** Terms in force: at most one that denies some packets, one that accepts some packets, and
    then only terms that deny the rest. *)
Definition pcap_shape (today : Z) (f : list string * list term) : Prop :=
  exists ds a rest, filter (valid_on today) (snd f) = ds ++ a :: rest /\ (List.length ds <= 1)%nat /\ (forall d, In d ds -> rejects d /\ has_condition d) /\
    accepts a /\ has_condition a /\ has_family (pc_af (header_cfg (fst f))) a /\ (forall r, In r rest -> rejects r /\ ~ has_condition r).
(** The same with the two in the other order, for the inverted filter. *)
Definition pcap_inverted_shape (today : Z) (f : list string * list term) : Prop :=
  exists as_ d rest, filter (valid_on today) (snd f) = as_ ++ d :: rest /\ (List.length as_ <= 1)%nat /\ (forall a, In a as_ -> accepts a /\ has_condition a) /\
    rejects d /\ has_condition d /\ has_family (pc_af (header_cfg (fst f))) d /\ (forall r, In r rest -> accepts r /\ ~ has_condition r).
Definition has_direction (options : list string) : Prop := In "in" options \/ In "out" options.
Definition pcap_policy_ok (shape : list string * list term -> Prop) (today : Z) (fs : list (list string * list term)) : Prop :=
  fs <> [] /\ ((forall f, In f fs -> has_direction (fst f)) \/ (forall f, In f fs -> ~ has_direction (fst f))) /\
  forall f, In f fs -> shape f /\ forall t, In t (snd f) -> in_force today t -> pcap_term_ok (pc_af (header_cfg (fst f))) t.
(** What the first term that matches does. *)
Definition pcap_says (p : packet) (t : term) (outcome : string) : Prop :=
  term_matches t p /\ exists a r, t_action t = a :: r /\ outcome = (if String.eqb a "accept" then "accept" else "deny").
Definition pcap_decides (today : Z) (p : packet) (terms : list term) (outcome : string) : Prop :=
  first_says (pcap_says p) (filter (valid_on today) terms) outcome.
