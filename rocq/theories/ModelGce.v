(** Model of capirca/lib/gce.py and the parts of capirca/lib/gcp.py it uses: Google Compute
    Engine firewall rules.  The output is modelled as the Python value that __str__
    (gce.py:589-595) passes to json.dumps. *)
From Verif Require Export ModelGen ModelText ModelCisco.
Local Open Scope string_scope.
Local Open Scope list_scope.
Local Open Scope Z_scope.

(** Python values as json.dumps takes them; dictionaries in the order of insertion. *)
Inductive json :=
  | JStr (s : string) | JNum (n : Z) | JBool (b : bool)
  | JList (l : list json) | JDict (d : list (string * json)).
(** d[k] = v *)
Fixpoint jset (k : string) (v : json) (d : list (string * json)) : list (string * json) :=
  match d with
  | [] => [(k, v)]
  | (k', x) :: r => if String.eqb k k' then (k, v) :: r else (k', x) :: jset k v r
  end.
(** a list of texts (gce.py:189-418) *)
Definition jstrings (l : list string) : json := JList (map JStr l).
(** k in d (gce.py:598-634) *)
Definition jhas (k : string) (d : list (string * json)) : bool := match assoc k d with Some _ => true | None => false end.

(** A policy term with the attributes that the record [term] leaves out: priority (the text
    of an INTEGER token, policy.py:1376, 2415; None is no priority) and the service accounts. *)
Record gce_term := mkGceTerm {
  g_term : term; g_priority : option json; g_source_accounts : list string; g_target_accounts : list string }.

(** gce.py:48-67 IsDefaultDeny, for the attributes of [gce_term].  Attributes whose values are
    neither texts nor lists are not looked at: ttl, traffic_class, expiration, counter (a VarType object) and
    the flags. *)
Definition deny_skips : list string :=
  ["flattened"; "flattened_addr"; "flattened_saddr"; "flattened_daddr"; "action"; "comment"; "name"; "logging";
   "ttl"; "traffic_class"; "expiration"; "counter"; "stateless_reply"; "translated"].
(** gce.py:48-67 *)
Definition is_default_deny (g : gce_term) : bool :=
  str_in "deny" (t_action (g_term g))
  && forallb (fun f => str_in (fst f) deny_skips || negb (truthy (snd f))) (term_fields (g_term g))
  && negb (some (g_source_accounts g)) && negb (some (g_target_accounts g))
  && match g_priority g with Some (JStr s) => is_empty s | _ => true end.

(** gce.py:75-84 TagsPresent *)
Definition tags_present (l : list string) : bool := existsb (fun s => negb (is_empty s)) l.

(** gce.py:111-117 _ALLOW_PROTO_NAME and ALWAYS_PROTO_NUM *)
Definition gce_names : list string := ["tcp"; "udp"; "icmp"; "esp"; "ah"; "ipip"; "sctp"; "all"].
(** gce.py:111-117 *)
Definition gce_numbered : list string := filter (fun p => negb (str_in p gce_names)) (map fst proto_map).

(** gce.py:165-187 _validateDirection *)
Definition validate_direction (direction : string) (t : term) : res unit :=
  if String.eqb direction "INGRESS" then
    if negb (some (t_source_address t)) && negb (some (t_source_tag t)) then Raise (Exn "GceFirewallError")
    else if some (t_destination_address t) then Raise (Exn "GceFirewallError") else Ok tt
  else if String.eqb direction "EGRESS" then
    if some (t_source_address t) then Raise (Exn "GceFirewallError")
    else if negb (some (t_destination_address t)) then Raise (Exn "GceFirewallError")
    else if tags_present (t_destination_tag t) then Raise (Exn "GceFirewallError") else Ok tt
  else Ok tt.

(** gce.py:119-158 Term.__init__: the term after flattening, and the converted protocols
    (which a second conversion for the other family leaves alone). *)
Definition gce_init (direction : string) (t : term) : res (term * list pval) :=
  let! ps := term_protocols gce_numbered (t_protocol t) in
  let! _ := validate_direction direction t in
  if some (t_source_address_exclude t) && negb (some (t_source_address t)) then Raise (Exn "GceFirewallError")
  else if negb (some (t_source_address t)) && negb (some (t_source_tag t)) && String.eqb direction "INGRESS"
  then Raise (Exn "GceFirewallError")
  else if some (t_source_port t) then Raise (Exn "GceFirewallError")
  else if (some (t_source_address_exclude t) && some (t_source_address t))
          || (some (t_destination_address_exclude t) && some (t_destination_address t))
  then
    let! t := flatten_all t in
    if negb (some (t_source_address t)) && String.eqb direction "INGRESS" then Raise (Exn "GceFirewallError")
    else if negb (some (t_destination_address t)) && String.eqb direction "EGRESS" then Raise (Exn "GceFirewallError")
    else Ok (t, ps)
  else Ok (t, ps).

(** gcp.py:169-191 FilterIPv4InIPv6FormatAddrs: IPv4-mapped (::ffff:0:0/96), 6to4 (2002::/16)
    and IPv4-compatible first addresses *)
Definition ipv4_format (n : net) : bool :=
  match nver n with
  | V4 => false
  | V6 => (Z.shiftr (naddr n) 32 =? 65535) || (Z.shiftr (naddr n) 112 =? 8194)
          || ((Z.shiftr (naddr n) 32 =? 0) && negb (naddr n =? 0))
  end.
(** gce.py:290-296: the addresses of one family, in order (policy.py:1186-1201) *)
Definition gce_addresses (v : ver) (l : list net) : list net :=
  filter (fun n => negb (ipv4_format n)) (sort_addr_list (filter (fun n => ver_eqb (nver n) v) l)).

(** gce.py:366-377, gcp.py:40-48 *)
Definition gce_port (r : prange) : json :=
  JStr (if fst r =? snd r then dec (fst r) else append (dec (fst r)) (append "-" (dec (snd r)))).
(** a protocol as it is written (gce.py:366-377) *)
Definition pval_json (p : pval) : json := match p with PName s => JStr s | PNum n => JNum n end.

(** gce.py:332-350: protocols left out for a family. A numeral (a text) differs from every number. *)
Definition proto_left_out (v : ver) (p : pval) : bool :=
  let num := match p with
             | PNum n => Some n
             | PName s => if str_in s gce_names then assoc s proto_map else None
             end in
  match num, v with
  | Some n, V6 => (n =? 1) || (n =? 2)
  | Some n, V4 => n =? 58
  | None, _ => false
  end.

(** range(0, len(l), n) and the slices l[x:x+n] (gce.py:391-393, 401-403); [fuel] bounds the number of slices *)
Fixpoint chunks {A} (fuel : nat) (n : nat) (l : list A) : list (list A) :=
  match fuel, l with
  | S f, _ :: _ => firstn n l :: chunks f n (skipn n l)
  | _, _ => []
  end.
(** gce.py:390-411: one rule for each chunk *)
Fixpoint chunk_rules (key : string) (several : bool) (i : Z) (d : list (string * json)) (cs : list (list net)) : list (list (string * json)) :=
  match cs with
  | [] => []
  | c :: rest =>
      let d' := if several
                then match assoc "name" d with
                     | Some (JStr s) => jset "name" (JStr (append s (append "-" (dec i)))) d
                     | _ => d
                     end
                else d in
      jset key (jstrings (map prefixlen_text c)) d' :: chunk_rules key several (i + 1) d rest
  end.
(** gce.py:390-411 *)
Definition address_rules (key : string) (l : list net) (d : list (string * json)) : list (list (string * json)) :=
  let cs := chunks (List.length l) 256 l in
  chunk_rules key (1 <? List.length cs)%nat 1 d cs.

(** gce.py:90-91 ACTION_MAP *)
Definition gce_actions : list (string * string) := [("accept", "allowed"); ("deny", "denied")].
(** network.split('/')[-1] *)
Definition last_part (s : string) : string := last (split_char "/" s) "".
(** rule['name'] (gce.py:355-386) *)
Definition rule_name (d : list (string * json)) : string := match assoc "name" d with Some (JStr s) => s | _ => "" end.

(** gce.py:202-272: the part of a rule that all protocols and addresses share. [mixed6] says
    that this is the IPv6 pass of a mixed policy, [comment] is the term's comment with the owner appended. *)
Definition term_dict (direction network : string) (mixed6 : bool) (comment : list string)
  (g : gce_term) (t : term) : res (list (string * json)) :=
  let d := [("description", JStr (slice_to (join " " comment) 2047)); ("name", JStr (t_name t)); ("direction", JStr direction)] in
  let d := if is_empty network then d
           else jset "name" (JStr (append (last_part network) (append "-" (t_name t)))) (jset "network" (JStr network) d) in
  let d := if mixed6 then jset "name" (JStr (append (rule_name d) "-v6")) d else d in
  if (30 <? List.length (t_source_tag t))%nat then Raise (Exn "GceFirewallError")
  else if (70 <? List.length (t_destination_tag t))%nat then Raise (Exn "GceFirewallError")
  else if (10 <? List.length (g_source_accounts g))%nat || (10 <? List.length (g_target_accounts g))%nat
  then Raise (Exn "GceFirewallError")
  else
    let stags := filter (fun s => negb (is_empty s)) (t_source_tag t) in
    let dtags := filter (fun s => negb (is_empty s)) (t_destination_tag t) in
    let d := if some stags && String.eqb direction "INGRESS" then jset "sourceTags" (jstrings stags) d
             else if some stags && String.eqb direction "EGRESS" then jset "targetTags" (jstrings stags) d else d in
    let d := if some dtags && String.eqb direction "INGRESS" then jset "targetTags" (jstrings dtags) d else d in
    if (some (g_source_accounts g) || some (g_target_accounts g)) && (jhas "targetTags" d || jhas "sourceTags" d)
    then Raise (Exn "GceFirewallError")
    else
      let d := if some (g_source_accounts g) then jset "sourceServiceAccounts" (jstrings (g_source_accounts g)) d else d in
      let d := if some (g_target_accounts g) then jset "targetServiceAccounts" (jstrings (g_target_accounts g)) d else d in
      Ok (match g_priority g with Some x => jset "priority" x d | None => d end).
(** gce.py:355-386: one entry of allowed or denied *)
Definition gce_entry (t : term) (p : pval) : json :=
  JDict (("IPProtocol", pval_json p)
         :: if some (t_destination_port t) then [("ports", JList (map gce_port (t_destination_port t)))] else []).
(** gce.py:189-418 ConvertToDict; [v] is the family rendered *)
Definition convert_to_dict (direction network : string) (v : ver) (mixed6 : bool) (comment : list string)
  (g : gce_term) (t : term) (ps : list pval) : res (list (list (string * json))) :=
  let! d := term_dict direction network mixed6 comment g t in
  if mixed6 && negb (some (t_source_address t)) && negb (some (t_destination_address t))
     && (jhas "targetTags" d || jhas "sourceTags" d) then Ok []
  else
    let saddrs := gce_addresses v (t_source_address t) in
    let daddrs := gce_addresses v (t_destination_address t) in
    if some (t_source_address t) && negb (some saddrs) then Ok []
    else if some (t_destination_address t) && negb (some daddrs) then Ok []
    else
      let ps := if some ps then filter (fun p => negb (proto_left_out v p)) ps else [PName "all"] in
      let d := if some (t_logging t) then jset "logConfig" (JDict [("enable", JBool true)]) d else d in
      if negb (some ps) then Ok []
      else if (256 <? List.length (t_destination_port t))%nat then Raise (Exn "GceFirewallError")
      else
        match t_action t with
        | [] => Raise (Exn "IndexError")
        | a :: _ =>
            match assoc a gce_actions with
            | None => Raise (Exn "KeyError")
            | Some key =>
                let d := jset key (JList (map (gce_entry t) ps)) d in
                let rules := if some saddrs then address_rules "sourceRanges" saddrs d
                             else if some daddrs then address_rules "destinationRanges" daddrs d
                             else [d] in
                if existsb (fun r => 63 <? slen (rule_name r)) rules then Raise (Exn "GceFirewallError") else Ok rules
            end
        end.

(** gce.py:598-634 GetAttributeCount *)
Definition list_length (k : string) (d : list (string * json)) : Z :=
  match assoc k d with Some (JList l) => Zlen l | _ => 0 end.
(** gce.py:598-634, allowed and denied *)
Definition proto_ports (k : string) (d : list (string * json)) : Z :=
  match assoc k d with
  | Some (JList l) => fold_left (fun n e => match e with JDict x => n + (list_length "ports" x + 1) | _ => n end) l 0
  | _ => 0
  end.
(** gce.py:598-634 *)
Definition attribute_count (d : list (string * json)) : Z :=
  (if list_length "destinationRanges" d =? 0 then list_length "sourceRanges" d else list_length "destinationRanges" d)
  + (proto_ports "allowed" d + proto_ports "denied" d)
  + (list_length "sourceTags" d + list_length "targetTags" d)
  + (list_length "sourceServiceAccounts" d + list_length "targetServiceAccounts" d).

(** list.remove: the first occurrence *)
Fixpoint remove_first (x : string) (l : list string) : list string :=
  match l with [] => [] | y :: r => if String.eqb x y then r else y :: remove_first x r end.
(** for i in candidates: if i in options: value = i; options.remove(i) (gce.py:480-490) *)
Definition pick (candidates : list string) (default : string) (opts : list string) : string * list string :=
  fold_left (fun st i => if str_in i (snd st) then (i, remove_first i (snd st)) else st) candidates (default, opts).
(** gce.py:492-500: the first option that int() accepts *)
Fixpoint first_int (opts : list string) : option (string * Z) :=
  match opts with
  | [] => None
  | o :: r => match py_int o with Ok n => Some (o, n) | Raise _ => first_int r end
  end.
(** what is read from a header (gce.py:475-505) *)
Record gce_info := mkGceInfo { gi_direction : string; gi_af : string; gi_max : option Z; gi_network : string }.
(** gce.py:475-505.  [order] is the order in which the frozen set _SUPPORTED_AF is walked,
    which Python does not fix. *)
Definition gce_options (order : list string) (opts : list string) : gce_info :=
  let (direction, opts) := pick ["INGRESS"; "EGRESS"] "INGRESS" opts in
  let (af, opts) := pick order "inet" opts in
  let (mx, opts) := match first_int opts with Some (o, n) => (Some n, remove_first o opts) | None => (None, opts) end in
  mkGceInfo direction af mx (match opts with o :: _ => o | [] => "" end).

(** gce.py:427-430 _ANY_IP *)
Definition any_ip (v : ver) : net := plain v 0 0.
(** gce.py:527-562: the families of a header *)
Definition gce_families (af : string) : list ver :=
  if String.eqb af "mixed" then [V4; V6] else if String.eqb af "inet6" then [V6] else [V4].
(** gce.py:508-525: what becomes of a last term that is a default deny *)
Definition fill_default_deny (i : gce_info) (g : gce_term) : gce_term :=
  let t := set_protocol ["all"] (g_term g) in
  let any := map any_ip (gce_families (gi_af i)) in
  mkGceTerm (if String.eqb (gi_direction i) "EGRESS" then set_destination_address any t else set_source_address any t)
    (Some (JNum 65534)) (g_source_accounts g) (g_target_accounts g).
(** gce.py:508-525 *)
Fixpoint fill_last (i : gce_info) (gs : list gce_term) : list gce_term :=
  match gs with
  | [] => []
  | [g] => [if is_default_deny g then fill_default_deny i g else g]
  | g :: rest => g :: fill_last i rest
  end.

(** gce.py:564-583: the rules of a term for each family.  [hc] is the header's comment, which a
    term without a comment shares (line 538), so that the owner line is appended to it;
    [count] the attributes so far. *)
Definition owner_line (o : option string) : list string :=
  match o with Some s => if is_empty s then [] else [append "Owner: " s] | None => [] end.
(** gce.py:564-583 *)
Fixpoint gce_pass (i : gce_info) (mx : Z) (g : gce_term) (vs : list ver) (comment : list string) (count : Z)
  : res (list (list (string * json)) * list string * Z) :=
  match vs with
  | [] => Ok ([], comment, count)
  | v :: rest =>
      let! tp := gce_init (gi_direction i) (g_term g) in
      let comment := comment ++ owner_line (t_owner (g_term g)) in
      let mixed6 := String.eqb (gi_af i) "mixed" && match v with V6 => true | V4 => false end in
      let! rules := convert_to_dict (gi_direction i) (gi_network i) v mixed6 comment g (fst tp) (snd tp) in
      let count' := fold_left (fun n r => n + attribute_count r) rules count in
      if negb (mx =? 0) && some rules && (mx <? count') then Raise (Exn "ExceededAttributeCountError")
      else
        let! more := gce_pass i mx (mkGceTerm (fst tp) (g_priority g) (g_source_accounts g) (g_target_accounts g)) rest comment count' in
        Ok (rules ++ fst (fst more), snd (fst more), snd more)
  end.
(** gce.py:527-562 *)
Fixpoint gce_terms (i : gce_info) (mx today : Z) (hc : list string) (names : list string) (count : Z) (gs : list gce_term)
  : res (list (list (string * json)) * Z) :=
  match gs with
  | [] => Ok ([], count)
  | g :: rest =>
      let t := g_term g in
      if t_stateless_reply t then gce_terms i mx today hc names count rest
      else
        let! name := fix_term_length abbreviation_table (if String.eqb (gi_direction i) "EGRESS" then append (t_name t) "-e" else t_name t)
                       false false 53 in
        if str_in name names then Raise (Exn "GceFirewallError")
        else
          let names := name :: names in
          if expired today t then gce_terms i mx today hc names count rest
          else if some (t_option t) then Raise (Exn "GceFirewallError")
          else if negb (active_on "gce" t) then gce_terms i mx today hc names count rest
          else
            let shared := negb (some (t_comment t)) in
            let! r := gce_pass i mx (mkGceTerm (set_name name t) (g_priority g) (g_source_accounts g) (g_target_accounts g))
                        (gce_families (gi_af i)) (if shared then hc else t_comment t) count in
            let! more := gce_terms i mx today (if shared then snd (fst r) else hc) names (snd r) rest in
            Ok (fst (fst r) ++ fst more, snd more)
  end.

(** a header: the options for the platform and the comments (gce.py:462-505) *)
Record gce_header := mkGceHeader { gh_options : list string; gh_comment : list string }.
(** gce.py:462-587 _TranslatePolicy: the headers for this platform; the maximum of one header
    stays in force for the next *)
Fixpoint gce_translate (order : list string) (today mx count : Z) (fs : list (gce_header * list gce_term)) : res (list (list (string * json))) :=
  match fs with
  | [] => Ok []
  | (h, gs) :: rest =>
      let i := gce_options order (gh_options h) in
      let mx := match gi_max i with Some n => n | None => mx end in
      if negb (some gs) then Raise (Exn "IndexError")
      else
        let! r := gce_terms i mx today (gh_comment h) [] count (fill_last i gs) in
        let! more := gce_translate order today mx (snd r) rest in
        Ok (fst r ++ more)
  end.
(** gce.py:440-460 _BuildTokens *)
Definition gce_tokens : tokens := mkTokens
  (filter (fun s => negb (str_in s ["icmp_type"; "verbatim"])) (supported default_tokens)
   ++ ["destination_tag"; "expiration"; "owner"; "priority"; "source_tag"; "source_service_accounts"; "target_service_accounts"])
  [("action", ["accept"; "deny"])].
(** A whole policy: the check of aclgenerator.py:269-322, then the translation *)
Definition gce_policy (order : list string) (today : Z) (fs : list (gce_header * list gce_term)) : res (list (list (string * json))) :=
  let! _ := check_tokens "gce" gce_tokens (map (fun f => (["gce"], map g_term (snd f))) fs) in
  gce_translate order today 0 0 fs.
