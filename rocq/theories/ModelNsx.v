(** NSX-T security policies (nsxt.py).  Not modelled: log messages, and the encoding of the result as
    JSON text. *)
From Verif Require Export ModelAsa ModelSonic.
From Verif Require ModelJuniper.
Local Open Scope string_scope.
Local Open Scope list_scope.
Local Open Scope Z_scope.

(** nsxt.py:29-34 _ACTION_TABLE *)
Definition nsx_actions : list (string * string) :=
  [("accept", "ALLOW"); ("deny", "DROP"); ("reject", "REJECT"); ("reject-with-tcp-rst", "REJECT")].
(** nsxt.py:52-57 _PROTOCOLS *)
Definition nsx_protocols : list (Z * string) := [(1, "ICMPv4"); (6, "TCP"); (17, "UDP"); (58, "ICMPv6")].

(** ** Services *)

(** nsxt.py:137-141 format_port_range *)
Definition nsx_port (r : prange) : json := JStr (ModelJuniper.port_text r).
(** nsxt.py:110-153 ServiceEntries.get; None is a protocol without a number *)
Definition nsx_service (proto : option Z) (sports dports : list prange) (types : list Z) : list json :=
  match proto with
  | None => []
  | Some n =>
      match zassoc n nsx_protocols with
      | None => []
      | Some w =>
          if (n =? 1) || (n =? 58) then
            let service := [("protocol", JStr w); ("resource_type", JStr "ICMPTypeServiceEntry")] in
            if some types then map (fun k => JDict (service ++ [("icmp_type", JNum k)])) types else [JDict service]
          else
            [JDict ([("l4_protocol", JStr w); ("resource_type", JStr "L4PortSetServiceEntry")]
                    ++ (if some sports then [("source_ports", JList (map nsx_port sports))] else [])
                    ++ (if some dports then [("destination_ports", JList (map nsx_port dports))] else []))]
      end
  end.

(** ** Addresses *)

(** nsxt.py:261-263 *)
Definition nsx_zero : net := mkNet V4 0 32 "" "" "".
(** nsxt.py:277-278: '0.0.0.0/0' in the texts of the addresses *)
Definition nsx_any (l : list net) : bool := existsb (fun n => String.eqb (prefixlen_text n) "0.0.0.0/0") l.
(** nsxt.py:266-282: the addresses of a side of IPv4; [zero] tells, when nothing is excluded, if 0.0.0.0 is *)
Definition nsx_v4 (zero : list net -> bool) (inc exc : list net) : res (list net) :=
  let a := address_of_version inc (Some V4) in
  let e := address_of_version exc (Some V4) in
  if some e then address_list_exclude a (e ++ [nsx_zero]) true
  else if zero a then address_list_exclude a [nsx_zero] true else Ok a.
(** nsxt.py:266-275, 297-299: the addresses of a side of IPv6 *)
Definition nsx_v6 (inc exc : list net) : res (list net) :=
  let a := address_of_version inc (Some V6) in
  let e := address_of_version exc (Some V6) in
  if some e then address_list_exclude a e true else Ok a.
(** nsxt.py:278-282: is 0.0.0.0 to be left out *)
Definition nsx_leave (l : list net) : bool := some l && negb (nsx_any l).
(** nsxt.py:283-297: all addresses are written as none *)
Definition nsx_listed (l : list net) : list net := if nsx_any l then [] else l.
(** nsxt.py:242-338: both sides, each with its addresses of IPv4 and of IPv6; whether 0.0.0.0 is left out
    of the destinations depends on the sources (nsxt.py:315-316) *)
Definition nsx_sides (vs : list ver) (t : term) : res ((list net * list net) * (list net * list net)) :=
  let has v := existsb (ver_eqb v) vs in
  let! s4 := (if has V4 && some (t_source_address t) then nsx_v4 nsx_leave (t_source_address t) (t_source_address_exclude t) else Ok []) in
  let! d4 := (if has V4 && some (t_destination_address t) then nsx_v4 (fun _ => nsx_leave s4) (t_destination_address t) (t_destination_address_exclude t) else Ok []) in
  let! s6 := (if has V6 && some (t_source_address t) then nsx_v6 (t_source_address t) (t_source_address_exclude t) else Ok []) in
  let! d6 := (if has V6 && some (t_destination_address t) then nsx_v6 (t_destination_address t) (t_destination_address_exclude t) else Ok []) in
  Ok ((nsx_listed s4, s6), (nsx_listed d4, d6)).
(** nsxt.py:340-356: sides of different families in mixed filters; None: the term is not rendered *)
Definition nsx_mismatch (mixed : bool) (s d : list net * list net) : option (list net * list net) :=
  let (s4, s6) := s in
  let (d4, d6) := d in
  let src := s4 ++ s6 in
  let dst := d4 ++ d6 in
  if mixed && some src && some dst then
    let (src, dst) := if some s4 && negb (some d4) then (s6, dst)
                      else if some s6 && negb (some d6) then (s4, dst)
                      else if some d4 && negb (some s4) then (src, d6)
                      else if some d6 && negb (some s6) then (src, d4)
                      else (src, dst) in
    if negb (some src) || negb (some dst) then None else Some (src, dst)
  else Some (src, dst).

(** ** Terms *)

(** nsxt.py:160-169 Term.__init__: the kind of filter, the family and the term *)
Definition nsx_entry : Type := string * ver * term.
(** nsxt.py:236-240 *)
Definition nsx_families (kind : string) (v : ver) : list ver := if String.eqb kind "mixed" then [V4; V6] else [v].
(** nsxt.py:362-363 *)
Definition nsx_group (l : list net) : json := if some l then JList (map (fun n => JStr (prefixlen_text n)) l) else JList [JStr "ANY"].
(** nsxt.py:171-392 Term.__str__; None is the empty text *)
Definition nsx_term (e : nsx_entry) : res (option json) :=
  let '(kind, v, t) := e in
  if (some (t_platform t) && negb (str_in "nsxt" (t_platform t))) || (some (t_platform_exclude t) && str_in "nsxt" (t_platform_exclude t)) then Ok None
  else if (ver_eqb v V6 && str_in "icmp" (t_protocol t)) || (ver_eqb v V4 && str_in "icmpv6" (t_protocol t)) then Ok None
  else if some (t_verbatim t) then Raise (Exn "NsxtAclTermError")
  else
    match t_option t with
    | o :: _ => if starts_with "tcp-established" o || starts_with "established" o then Ok None else Raise (Exn "NsxtAclTermError")
    | [] =>
        let action := match t_action t with [] => Some "ALLOW" | a :: _ => assoc a nsx_actions end in
        let vs := nsx_families kind v in
        let! (s, d) := nsx_sides vs t in
        match nsx_mismatch (String.eqb kind "mixed") s d with
        | None => Ok None
        | Some (src, dst) =>
            let! services := (if some (t_protocol t) then
                                let! types := (if some (t_icmp_type t) then normalize_icmp_types (t_icmp_type t) (t_protocol t) (AfNum (ver_number v)) else Ok None) in
                                Ok [("service_entries", JList (flat_map (fun q => nsx_service (assoc q proto_map) (t_source_port t) (t_destination_port t)
                                                                                     (match types with Some l => l | None => [] end)) (t_protocol t)))]
                              else Ok []) in
            Ok (Some (JDict ([("action", match action with Some a => JStr a | None => JStr "null" end); ("resource_type", JStr "Rule"); ("display_name", JStr (t_name t));
                              ("source_groups", nsx_group src); ("destination_groups", nsx_group dst);
                              ("services", JList [JStr "ANY"]); ("profiles", JList [JStr "ANY"]); ("scope", JList [JStr "ANY"]);
                              ("logged", JBool (some (t_logging t))); ("notes", JStr (join (String newline "") (t_comment t))); ("direction", JStr "IN_OUT");
                              ("ip_protocol", JStr (join "_" (map (fun w => "IPV" ++ dec (ver_number w))%string vs)))] ++ services)))
        end
    end.

(** ** Headers *)

(** nsxt.py:395-399: what is kept of the options of a header *)
Record nsx_options := mkNsxOptions { no_name : string; no_kind : string; no_id : option string; no_scope : string }.
(** nsxt.py:556-569: the group the policy is applied to *)
Fixpoint nsx_scope (opts : list string) : res string :=
  match opts with
  | [] => Ok "ANY"
  | o :: rest =>
      if String.eqb o "securitygroup" then
        match rest with
        | [] => Raise (Exn "UnsupportedNsxtAccessListError")
        | g :: _ => if is_empty g then Raise (Exn "IndexError") else Ok (if starts_with "/" g then g else ("/infra/domains/default/groups/" ++ g)%string)
        end
      else nsx_scope rest
  end.
(** nsxt.py:517-574 _ParseFilterOptions *)
Definition nsx_parse (opts : list string) : res nsx_options :=
  match opts with
  | name :: kind :: more =>
      if (3 <? List.length more)%nat then Raise (Exn "UnsupportedNsxtAccessListError")
      else if negb (str_in kind ["inet"; "inet6"; "mixed"]) then Raise (Exn "UnsupportedNsxtAccessListError")
      else
        let id := match more with o :: _ => if String.eqb o "securitygroup" then None else Some o | [] => None end in
        let! scope := nsx_scope (match id with Some _ => tl more | None => more end) in
        Ok (mkNsxOptions name kind id scope)
  | _ => Raise (Exn "UnsupportedNsxtAccessListError")
  end.
(** nsxt.py:450-515: the terms of a header *)
Fixpoint nsx_terms (today : Z) (kind : string) (seen : list string) (terms : list term) : res (list nsx_entry) :=
  match terms with
  | [] => Ok []
  | t :: rest =>
      if str_in (t_name t) seen then Raise (Exn "NsxtDuplicateTermError")
      else
        let seen := t_name t :: seen in
        if expired today t then nsx_terms today kind seen rest
        else
          match t_action t with
          | [] => Raise (Exn "IndexError")
          | a :: _ =>
              match assoc a nsx_actions with
              | None => nsx_terms today kind seen rest
              | Some _ =>
                  let! n := fix_term_length abbreviation_table (t_name t) false false cisco_name_limit in
                  let v := if String.eqb kind "inet6" || (String.eqb kind "mixed" && str_in "icmpv6" (t_protocol t)) then V6 else V4 in
                  let! t := fix_high_ports cisco_gen (set_name n t) (match v with V4 => "inet" | V6 => "inet6" end) false in
                  let! more := nsx_terms today kind seen rest in
                  Ok ((kind, v, t) :: more)
              end
          end
  end.
(** A generator: the comment and the terms of each header for the platform (nsxt.py:514-515). *)
Definition nsx_object : Type := list (list string * list nsx_entry).
(** nsxt.py:423-515 _TranslatePolicy; the options of the header end up in a dictionary of the class, which
    all generators share *)
Fixpoint nsx_translate (today : Z) (shared : option nsx_options) (fs : list ((option (list string) * list string) * list term)) : res (nsx_object * option nsx_options) :=
  match fs with
  | [] => Ok ([], shared)
  | (h, terms) :: rest =>
      match fst h with
      | None => nsx_translate today shared rest
      | Some opts =>
          let! o := nsx_parse opts in
          let! es := nsx_terms today (no_kind o) [] terms in
          let! (obj, shared) := nsx_translate today (Some o) rest in
          Ok ((snd h, es) :: obj, shared)
      end
  end.
(** aclgenerator.py:269-322 for nsxt.py:402-421 Nsxt *)
Definition nsx_new (today : Z) (shared : option nsx_options) (fs : list ((option (list string) * list string) * list term)) : res (nsx_object * option nsx_options) :=
  let! _ := check_tokens "nsxt" default_tokens (map (fun f => (match fst (fst f) with Some _ => ["nsxt"] | None => [] end, snd f)) fs) in
  nsx_translate today shared fs.
(** nsxt.py:576-614 __str__ *)
Definition nsx_str (obj : nsx_object) (shared : option nsx_options) : res json :=
  match obj with
  | [] => Raise (Exn "IndexError")
  | _ :: _ :: _ => Raise (Exn "NsxtUnsupportedManyPoliciesError")
  | [(comment, es)] =>
      let! rules := mapM nsx_term es in
      match shared with
      | None => Raise (Exn "KeyError")
      | Some o =>
          Ok (JDict [("rules", JList (flat_map (fun r => match r with Some j => [j] | None => [] end) rules)); ("resource_type", JStr "SecurityPolicy");
                     ("display_name", JStr (no_name o)); ("id", JStr (match no_id o with Some i => i | None => no_name o end));
                     ("category", JStr "Application"); ("is_default", JStr "false"); ("scope", JList [JStr (no_scope o)]);
                     ("description", JStr (join " " (add_repository_tags "" true true true false) ++ (if some comment then " :: " ++ join " :: " comment else ""))%string)])
      end
  end.
(** str(Nsxt(policy)), when the generator is printed as soon as it is made (aclgen.py:358-361) *)
Definition nsx_policy (today : Z) (shared : option nsx_options) (fs : list ((option (list string) * list string) * list term)) : res json :=
  let! (obj, shared) := nsx_new today shared fs in
  nsx_str obj shared.
