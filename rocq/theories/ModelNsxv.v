(** NSX-V sections (nsxv.py).  Not modelled: log messages, and the parser and pretty printer the text
    is passed through at the end (nsxv.py:650-652): the text is taken as it is handed to the parser. *)
From Verif Require Export ModelNsx.
From Verif Require ModelJuniper.
Local Open Scope string_scope.
Local Open Scope list_scope.
Local Open Scope Z_scope.

(** nsxv.py:28-33 _ACTION_TABLE *)
Definition nv_actions : list (string * string) :=
  [("accept", "allow"); ("deny", "deny"); ("reject", "reject"); ("reject-with-tcp-rst", "reject")].
(** the texts one after the other (nsxv.py:329-343, 650) *)
Definition nv_cat (l : list string) : string := fold_right append "" l.
(** nsxv.py:35-66 _XML_TABLE: the start and the end of an element around a text *)
Definition nv_elem (tag inner : string) : string := ("<" ++ tag ++ ">" ++ inner ++ "</" ++ tag ++ ">")%string.

(** ** Services *)

(** nsxv.py:416-426, 429-439: the ports of a side *)
Definition nv_ports (tag : string) (l : list prange) : string :=
  if some l then nv_elem tag (join ", " (map ModelJuniper.port_text l)) else "".
(** nsxv.py:373-441 _ServiceToString; [types] is [''] when no types are given, here None; a type of 0
    counts as none (nsxv.py:400) *)
Definition nv_service (proto : Z + string) (sports dports : list prange) (types : list (option Z)) : string :=
  let w := nv_elem "protocol" (match proto with inl n => dec n | inr s => s end) in
  match proto with
  | inl n =>
      if (n =? 1) || (n =? 58) then
        nv_cat (map (fun k => nv_elem "service"
          (append w match k with Some k => if (k =? 0)%Z then "" else nv_elem "subProtocol" (dec k) | None => "" end)) types)
      else nv_elem "service" (w ++ nv_ports "sourcePort" sports ++ nv_ports "destinationPort" dports)%string
  | inr _ => nv_elem "service" (w ++ nv_ports "sourcePort" sports ++ nv_ports "destinationPort" dports)%string
  end.
(** nsxv.py:329-343: all protocols of a term *)
Definition nv_services (t : term) (types : list (option Z)) : string :=
  if some (t_protocol t) then
    nv_elem "services" (nv_cat (map (fun q =>
      if String.eqb q "any" then "" else
      nv_service (match assoc q proto_map with Some n => inl n | None => inr q end) (t_source_port t) (t_destination_port t) types) (t_protocol t)))
  else "".

(** ** Addresses *)

(** nsxv.py:213-243: the addresses of a side of one family *)
Definition nv_side (v : ver) (inc exc : list net) : res (list net) :=
  if some inc then
    let a := address_of_version inc (Some v) in
    let e := address_of_version exc (Some v) in
    if some e then address_list_exclude a e true else Ok a
  else Ok [].
(** nsxv.py:211-243: both sides, each with its addresses of IPv4 and of IPv6 *)
Definition nv_sides (vs : list ver) (t : term) : res ((list net * list net) * (list net * list net)) :=
  let has v := existsb (ver_eqb v) vs in
  let one v inc exc := if has v then nv_side v inc exc else Ok [] in
  let! s4 := one V4 (t_source_address t) (t_source_address_exclude t) in
  let! d4 := one V4 (t_destination_address t) (t_destination_address_exclude t) in
  let! s6 := one V6 (t_source_address t) (t_source_address_exclude t) in
  let! d6 := one V6 (t_destination_address t) (t_destination_address_exclude t) in
  Ok ((s4, s6), (d4, d6)).
(** nsxv.py:277-299, 303-325: an address *)
Definition nv_address (tag : string) (n : net) : string :=
  nv_elem tag (nv_elem "type" (match nver n with V4 => "Ipv4Address" | V6 => "Ipv6Address" end)
    ++ nv_elem "value" (if (1 <? 2 ^ (width (nver n) - nlen n))%Z then prefixlen_text n else addr_text (nver n) (naddr n)))%string.
(** nsxv.py:274-326: the addresses of a side *)
Definition nv_addresses (tag : string) (l : list net) : string :=
  if some l then ("<" ++ tag ++ "s excluded=" ++ String dquote ("false" ++ String dquote (">" ++
    nv_cat (map (nv_address tag) l) ++ "</" ++ tag ++ "s>")))%string
  else "".

(** ** Terms *)

(** nsxv.py:110-116 Term.__init__: the kind of filter, the group it is applied to, the family and the term *)
Definition nv_entry : Type := string * option string * ver * term.
(** nsxv.py:355-364: the rule before runs of spaces are removed *)
Definition nv_rule (t : term) (applied : option string) (action : string) (src dst : list net) (services : string) : string :=
  ("<rule logged=" ++ String dquote ((if some (t_logging t) then "true" else "false") ++ String dquote (">" ++
    nv_elem "name" (t_name t) ++ nv_elem "action" action ++ nv_addresses "source" src ++ nv_addresses "destination" dst ++ services
    ++ (match applied with
        | Some g => if is_empty g then "" else nv_elem "appliedToList" (nv_elem "appliedTo" (nv_elem "type" "SecurityGroup" ++ nv_elem "value" g))
        | None => "" end)
    ++ (if some (t_comment t) then nv_elem "notes" (nv_cat (t_comment t)) else "") ++ "</rule>")))%string.
(** nsxv.py:118-371 Term.__str__; None is the empty text *)
Definition nv_term (e : nv_entry) : res (option string) :=
  let '(kind, applied, v, t) := e in
  if (some (t_platform t) && negb (str_in "nsxv" (t_platform t))) || (some (t_platform_exclude t) && str_in "nsxv" (t_platform_exclude t)) then Ok None
  else if (ver_eqb v V6 && str_in "icmp" (t_protocol t)) || (ver_eqb v V4 && str_in "icmpv6" (t_protocol t)) then Ok None
  else if some (t_verbatim t) then Raise (Exn "NsxvAclTermError")
  else
    match t_option t with
    | o :: _ => if starts_with "tcp-established" o || starts_with "established" o then Ok None else Raise (Exn "NsxvAclTermError")
    | [] =>
        let! types := (if some (t_protocol t) && some (t_icmp_type t) then normalize_icmp_types (t_icmp_type t) (t_protocol t) (AfNum (ver_number v)) else Ok None) in
        let! (s, d) := nv_sides (nsx_families kind v) t in
        match nsx_mismatch (String.eqb kind "mixed") s d with
        | None => Ok None
        | Some (src, dst) =>
            match t_action t with
            | [] => Raise (Exn "IndexError")
            | a :: _ =>
                let action := match assoc a nv_actions with Some w => w | None => "None" end in
                Ok (Some (rstrip (squeeze false (nv_rule t applied action src dst
                  (nv_services t (match types with Some l => map Some l | None => [None] end))))))
            end
        end
    end.

(** ** Headers *)

(** nsxv.py:592-595: what is kept of the options of a header *)
Record nv_options := mkNvOptions { nv_name : string; nv_kind : string; nv_id : option string; nv_applied : option string }.
(** nsxv.py:579-590: the group the section is applied to *)
Fixpoint nv_scope (opts : list string) : res (option string) :=
  match opts with
  | [] => Ok None
  | o :: rest =>
      if String.eqb o "securitygroup" then
        match rest with [] => Raise (Exn "UnsupportedNsxvAccessListError") | g :: _ => Ok (Some g) end
      else nv_scope rest
  end.
(** nsxv.py:540-595 _ParseFilterOptions *)
Definition nv_parse (opts : list string) : res nv_options :=
  match opts with
  | name :: kind :: more =>
      if (3 <? List.length more)%nat then Raise (Exn "UnsupportedNsxvAccessListError")
      else if negb (str_in kind ["inet"; "inet6"; "mixed"]) then Raise (Exn "UnsupportedNsxvAccessListError")
      else
        let id := match more with o :: _ => if String.eqb o "securitygroup" then None else Some o | [] => None end in
        let! scope := nv_scope (match id with Some _ => tl more | None => more end) in
        Ok (mkNvOptions name kind id scope)
  | _ => Raise (Exn "UnsupportedNsxvAccessListError")
  end.
(** nsxv.py:488-537: the terms of a header *)
Fixpoint nv_terms (today : Z) (kind : string) (applied : option string) (seen : list string) (terms : list term) : res (list nv_entry) :=
  match terms with
  | [] => Ok []
  | t :: rest =>
      if str_in (t_name t) seen then Raise (Exn "NsxvDuplicateTermError")
      else
        let seen := t_name t :: seen in
        if expired today t then nv_terms today kind applied seen rest
        else
          match t_action t with
          | [] => Raise (Exn "IndexError")
          | a :: _ =>
              match assoc a nv_actions with
              | None => nv_terms today kind applied seen rest
              | Some _ =>
                  let! n := fix_term_length abbreviation_table (t_name t) false false cisco_name_limit in
                  let v := if String.eqb kind "inet6" || (String.eqb kind "mixed" && str_in "icmpv6" (t_protocol t)) then V6 else V4 in
                  let! t := fix_high_ports cisco_gen (set_name n t) (match v with V4 => "inet" | V6 => "inet6" end) false in
                  let! more := nv_terms today kind applied seen rest in
                  Ok ((kind, applied, v, t) :: more)
              end
          end
  end.
(** A generator: the terms of each header for the platform (nsxv.py:537-538). *)
Definition nv_object : Type := list (list nv_entry).
(** nsxv.py:469-538 _TranslatePolicy; the options of the header end up in a dictionary of the class, which
    all generators share.  A header for other platforms is None. *)
Fixpoint nv_translate (today : Z) (shared : option nv_options) (fs : list (option (list string) * list term)) : res (nv_object * option nv_options) :=
  match fs with
  | [] => Ok ([], shared)
  | (None, _) :: rest => nv_translate today shared rest
  | (Some opts, terms) :: rest =>
      let! o := nv_parse opts in
      let! es := nv_terms today (nv_kind o) (nv_applied o) [] terms in
      let! (obj, shared) := nv_translate today (Some o) rest in
      Ok (es :: obj, shared)
  end.
(** nsxv.py:455-467 _BuildTokens *)
Definition nv_tokens : tokens := mkTokens
  (supported default_tokens ++ ["logging"])
  [("action", ["accept"; "deny"; "reject"; "reject-with-tcp-rst"]); ("icmp_type", map fst icmp_type4 ++ map fst icmp_type6)].
(** aclgenerator.py:269-322 for nsxv.py:444-538 Nsxv *)
Definition nv_new (today : Z) (shared : option nv_options) (fs : list (option (list string) * list term)) : res (nv_object * option nv_options) :=
  let! _ := check_tokens "nsxv" nv_tokens (map (fun f => (match fst f with Some _ => ["nsxv"] | None => [] end, snd f)) fs) in
  nv_translate today shared fs.
(** nsxv.py:618-631: the start of a section, without its brackets *)
Definition nv_head (o : nv_options) : string :=
  let name := ("name=" ++ String dquote (strip (nv_name o) ++ String dquote ""))%string in
  match nv_id o with
  | Some i => if is_empty i then ("section " ++ name)%string else ("section id=" ++ String dquote (i ++ String dquote (" " ++ name)))%string
  | None => ("section " ++ name)%string
  end.
(** nsxv.py:597-652 __str__.  A second section makes the parser fail; a policy without sections leaves
    the result unset. *)
Definition nv_str (obj : nv_object) (shared : option nv_options) : res string :=
  match obj with
  | [] => Raise (Exn "UnboundLocalError")
  | _ :: _ :: _ => Raise (Exn "ExpatError")
  | [es] =>
      let! rules := mapM nv_term es in
      match shared with
      | None => Raise (Exn "KeyError")
      | Some o =>
          Ok ("<!--" ++ nv_cat (add_repository_tags (String newline "") true true true false) ++ String newline ("-->" ++
              "<" ++ nv_head o ++ ">" ++ nv_cat (flat_map (fun r => match r with Some j => [j] | None => [] end) rules) ++ "</section>" ++ String newline ""))%string
      end
  end.
(** str(Nsxv(policy)), when the generator is printed as soon as it is made (aclgen.py:358-361) *)
Definition nv_policy (today : Z) (shared : option nv_options) (fs : list (option (list string) * list term)) : res string :=
  let! (obj, shared) := nv_new today shared fs in
  nv_str obj shared.
