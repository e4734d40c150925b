(** Google Cloud hierarchical firewall policies (gcp_hf.py, and gcp.py as far as it uses it).
    The output is modelled as the Python value that __str__ (gcp.py:65-73) passes to json.dumps. *)
From Verif Require Export ModelGce.
Local Open Scope string_scope.
Local Open Scope list_scope.
Local Open Scope Z_scope.

(** A policy term with the attribute that the record [term] leaves out: pairs of a project and a network. *)
Record hf_term := mkHfTerm { h_term : term; h_targets : list (string * string) }.

(** gcp.py:76-99 IsDefaultDeny *)
Definition hf_default_deny (h : hf_term) : bool :=
  str_in "deny" (t_action (h_term h))
  && forallb (fun f => str_in (fst f) deny_skips || negb (truthy (snd f))) (term_fields (h_term h))
  && negb (some (h_targets h)).
(** gcp.py:118, 138, gcp_hf.py:493: a lower-case letter, then dashes, lower-case letters and digits, no dash at
    the end; simplified: names hold no newline, before which $ would match *)
Definition lower_letter (c : ascii) : bool := let n := nat_of_ascii c in ((97 <=? n) && (n <=? 122))%nat.
(** the class [a-z0-9] of gcp.py:118, 138 *)
Definition lower_or_digit (c : ascii) : bool := let n := nat_of_ascii c in lower_letter c || ((48 <=? n) && (n <=? 57))%nat.
(** gcp.py:118, 138, gcp_hf.py:493 *)
Definition dash_name (s : string) : bool :=
  match list_ascii_of_string s with
  | [] => false
  | c :: r => lower_letter c && forallb (fun x => lower_or_digit x || Ascii.eqb x "-") r && lower_or_digit (last (c :: r) "-"%char)
  end.
(** gcp.py:102-118 IsProjectIDValid *)
Definition project_valid (s : string) : bool := (6 <=? slen s) && (slen s <=? 30) && dash_name s.
(** gcp.py:121-138 IsVPCNameValid *)
Definition vpc_valid (s : string) : bool := (1 <=? slen s) && (slen s <=? 63) && dash_name s.
(** gcp_hf.py:62-70 *)
Definition threat_lists : list string :=
  ["iplist-tor-exit-nodes"; "iplist-known-malicious-ips"; "iplist-search-engines-crawlers"; "iplist-public-clouds";
   "iplist-public-clouds-aws"; "iplist-public-clouds-azure"; "iplist-public-clouds-gcp"].
(** gcp_hf.py:89-143 _ValidateTerm; the family is never mixed (line 519) *)
Definition hf_validate (h : hf_term) : res unit :=
  let t := h_term h in
  if some (t_destination_tag t) || some (t_source_tag t) then Raise (Exn "TermError")
  else if (256 <? List.length (h_targets h))%nat then Raise (Exn "TermError")
  else if negb (forallb (fun x => project_valid (fst x) && vpc_valid (snd x)) (h_targets h)) then Raise (Exn "TermError")
  else if some (t_source_port t) then Raise (Exn "TermError")
  else if some (t_option t) then Raise (Exn "TermError")
  else if (256 <? List.length (t_destination_port t))%nat then Raise (Exn "TermError")
  else if negb (forallb (fun s => str_in s threat_lists) (t_source_prefix t ++ t_destination_prefix t)) then Raise (Exn "TermError")
  else Ok tt.
(** gcp_hf.py:199-218: protocols left out for a family; numbers differ from every name *)
Definition hf_left_out (v : ver) (p : pval) : bool :=
  match p with
  | PName s => match v with V6 => String.eqb s "icmp" || String.eqb s "igmp" | V4 => String.eqb s "icmpv6" end
  | PNum _ => false
  end.
(** gcp_hf.py:231-242: one entry of layer4Configs *)
Definition hf_entry (ports : list prange) (p : pval) : res json :=
  match p with
  | PName s =>
      let! text := if str_in s gce_names then Ok s
                   else match assoc s proto_map with Some n => Ok (dec n) | None => Raise (Exn "KeyError") end in
      Ok (JDict (("ipProtocol", JStr text) :: if some ports then [("ports", JList (map gce_port ports))] else []))
  | PNum _ => Raise (Exn "KeyError")
  end.
(** gcp_hf.py:230-242 *)
Fixpoint hf_entries (ports : list prange) (ps : list pval) : res (list json) :=
  match ps with
  | [] => Ok []
  | p :: r => let! e := hf_entry ports p in let! more := hf_entries ports r in Ok (e :: more)
  end.
(** gcp_hf.py:244-253, 264-267, 300-307: the conditions of a rule; [ga] is the version of the interface *)
Definition hf_match (ga : bool) (l4 : list json) (threat_key : string) (threats : list string) (ranges : list (string * json)) : json :=
  let threat := if some threats then [(threat_key, jstrings threats)] else [] in
  if ga then JDict (("layer4Configs", JList l4) :: threat ++ ranges)
  else JDict ([("config", JDict (("layer4Configs", JList l4) :: ranges)); ("versionedExpr", JStr "FIREWALL")] ++ threat).
(** gcp_hf.py:49 ACTION_MAP *)
Definition hf_action (a : string) : string := match assoc a [("accept", "allow"); ("next", "goto_next")] with Some x => x | None => a end.
(** gcp_hf.py:182-187 *)
Definition target_text (x : string * string) : string :=
  append "https://www.googleapis.com/compute/v1/projects/" (append (fst x) (append "/global/networks/" (snd x))).
(** gcp_hf.py:168-197, and match *)
Definition hf_rule (direction : string) (mixed6 : bool) (h : hf_term) (action : string) (n : Z) (conditions : json) : json :=
  let t := h_term h in
  JDict ([("action", JStr (hf_action action)); ("direction", JStr direction); ("priority", JNum n)]
         ++ (if some (h_targets h) then [("targetResources", jstrings (map target_text (h_targets h)))] else [])
         ++ [("enableLogging", JBool (str_in "true" (t_logging t) || str_in "True" (t_logging t)));
             ("description", JStr (slice_to (append (if mixed6 then append (t_name t) "-v6" else t_name t) (append ": " (join " " (t_comment t)))) 64));
             ("match", conditions)]).
(** gcp_hf.py:298-310, 345-357 *)
Fixpoint hf_chunks (rule : Z -> list (string * json) -> json) (key : string) (n : Z) (cs : list (list net)) : list json :=
  match cs with
  | [] => []
  | c :: r => rule n [(key, jstrings (map prefixlen_text c))] :: hf_chunks rule key (n + 1) r
  end.
(** gcp_hf.py:145-359 ConvertToDict after __init__ (line 72-87) *)
Definition hf_rules (direction : string) (ga : bool) (v : ver) (mixed6 : bool) (h : hf_term) (n : Z) : res (list json) :=
  let t := h_term h in
  let! ps := term_protocols ["ipip"] (t_protocol t) in
  let! _ := hf_validate h in
  match t_action t with
  | [] => Raise (Exn "IndexError")
  | a :: _ =>
      let ps' := filter (fun p => negb (hf_left_out v p)) ps in
      if some ps && negb (some ps') then Ok []
      else
        let! l4 := if some ps then hf_entries (t_destination_port t) ps' else Ok [JDict [("ipProtocol", JStr "all")]] in
        let out := String.eqb direction "EGRESS" in
        let addresses := if out then t_destination_address t else t_source_address t in
        let threats := if out then t_destination_prefix t else t_source_prefix t in
        let rule := fun n ranges => hf_rule direction mixed6 h a n
                      (hf_match ga l4 (if out then "destThreatIntelligences" else "srcThreatIntelligences") threats ranges) in
        let addrs := gce_addresses v addresses in
        if some addresses && negb (some addrs) then Ok []
        else if negb (some addrs) && some threats then (if mixed6 then Ok [] else Ok [rule n []])
        else
          let addrs := if some addrs then addrs else [any_ip v] in
          Ok (hf_chunks rule (if out then "destIpRanges" else "srcIpRanges") n (chunks (List.length addrs) 256 addrs))
  end.
(** gcp_hf.py:587-630 GetRuleTupleCount *)
Definition jdict (o : option json) : list (string * json) := match o with Some (JDict d) => d | _ => [] end.
(** a list of the dictionary, empty where it is missing (gcp_hf.py:587-630) *)
Definition jlist (o : option json) : list json := match o with Some (JList l) => l | _ => [] end.
(** gcp_hf.py:587-630 *)
Definition hf_cost (ga : bool) (rule : json) : Z :=
  let r := jdict (Some rule) in
  let config := if ga then jdict (assoc "match" r) else jdict (assoc "config" (jdict (assoc "match" r))) in
  Zlen (jlist (assoc "destIpRanges" config)) + Zlen (jlist (assoc "srcIpRanges" config))
  + fold_left (fun n e => n + (Zlen (jlist (assoc "ports" (jdict (Some e)))) + match assoc "ipProtocol" (jdict (Some e)) with Some _ => 1 | None => 0 end))
      (jlist (assoc "layer4Configs" config)) 0
  + Zlen (jlist (assoc "targetResources" r))
  + (Zlen (jlist (assoc "srcThreatIntelligences" config)) + Zlen (jlist (assoc "destThreatIntelligences" config))).

(** what is read from a header (gcp_hf.py:433-510) *)
Record hf_info := mkHfInfo { hi_direction : string; hi_af : string; hi_ga : bool; hi_max : Z; hi_name : string }.
(** gcp_hf.py:433-510, for the options of the header.  [afs] and [apis] are the orders in which
    the frozen sets are walked, which Python does not fix.  The name is the first option that is
    left (policy.py:1861-1865 reads the list that has been changed); one target per header.
    Simplified: which of several errors in one header is raised. *)
Definition hf_options (afs apis : list string) (options : list string) : res hf_info :=
  let (direction, o) := pick ["INGRESS"; "EGRESS"] "INGRESS" options in
  let (af, o) := pick afs "inet" o in
  let (api, o) := match find (fun a => str_in a o) apis with Some a => (a, remove_first a o) | None => ("ga", o) end in
  let (max, o) := match first_int o with Some (x, n) => (n, remove_first x o) | None => (100, o) end in
  if 65536 <? max then Raise (Exn "HeaderError")
  else
    match o with
    | [] => Raise (Exn "HeaderError")
    | name :: rest =>
        if is_empty name || (63 <? slen name) || negb (dash_name name) || some rest then Raise (Exn "HeaderError")
        else Ok (mkHfInfo direction af (String.eqb api "ga") max name)
    end.
(** gcp_hf.py:528-544, 549-554: a default deny gets the addresses of the header's families *)
Definition hf_fill (i : hf_info) (h : hf_term) : hf_term :=
  if hf_default_deny h then
    let any := map any_ip (gce_families (hi_af i)) in
    mkHfTerm (if String.eqb (hi_direction i) "EGRESS" then set_destination_address any (h_term h) else set_source_address any (h_term h)) (h_targets h)
  else h.
(** gcp_hf.py:556-567: a term for each family *)
Fixpoint hf_families (i : hf_info) (h : hf_term) (n : Z) (vs : list ver) : res (list json) :=
  match vs with
  | [] => Ok []
  | v :: r =>
      let! rules := hf_rules (hi_direction i) (hi_ga i) v (String.eqb (hi_af i) "mixed" && match v with V6 => true | V4 => false end) h n in
      let! more := hf_families i h (n + Zlen rules) r in
      Ok (rules ++ more)
  end.
(** gcp_hf.py:524-567 *)
Fixpoint hf_terms (i : hf_info) (n : Z) (hs : list hf_term) : res (list json) :=
  match hs with
  | [] => Ok []
  | h :: rest =>
      if t_stateless_reply (h_term h) then hf_terms i n rest
      else
        let h := hf_fill i h in
        let! name := fix_term_length abbreviation_table (t_name (h_term h)) false false 62 in
        if negb (active_on "gcp_hf" (h_term h)) then hf_terms i n rest
        else
          let! rules := hf_families i (mkHfTerm (set_name name (h_term h)) (h_targets h)) n (gce_families (hi_af i)) in
          let! more := hf_terms i (n + Zlen rules) rest in
          Ok (rules ++ more)
  end.
(** gcp_hf.py:424-567: [fields] are the names given so far, [before] the maximum of the headers
    before, or -1 *)
Fixpoint hf_filters (afs apis : list string) (fields : list (string * json)) (n cost before : Z) (fs : list (list string * list hf_term))
  : res (list (string * json) * list json * Z) :=
  match fs with
  | [] => Ok (fields, [], cost)
  | (options, hs) :: rest =>
      let! i := hf_options afs apis options in
      if negb (before =? -1) && negb (before =? hi_max i) then Raise (Exn "HeaderError")
      else
        let key := if hi_ga i then "shortName" else "displayName" in
        if match assoc key fields with Some (JStr s) => negb (String.eqb s (hi_name i)) | _ => false end
        then Raise (Exn "DifferentPolicyNameError")
        else
          let fields := jset key (JStr (hi_name i)) fields in
          let fields := if hi_ga i then fields else jset "type" (JStr "FIREWALL") fields in
          let! rules := hf_terms i n hs in
          let cost := fold_left (fun c r => c + hf_cost (hi_ga i) r) rules cost in
          if match rest with [] => hi_max i <? cost | _ => false end then Raise (Exn "ExceededCostError")
          else
            let! more := hf_filters afs apis fields (n + Zlen rules) cost (hi_max i) rest in
            Ok (fst (fst more), rules ++ snd (fst more), snd more)
  end.
(** gcp_hf.py:379-398 _BuildTokens: expiration is added and taken away again *)
Definition hf_tokens : tokens := mkTokens
  (filter (fun s => negb (str_in s ["destination_address_exclude"; "expiration"; "icmp_type"; "source_address_exclude"; "verbatim"]))
     (supported default_tokens) ++ ["destination_tag"; "source_tag"; "target_resources"; "logging"; "source_prefix"; "destination_prefix"])
  [("action", ["accept"; "deny"; "next"])].
(** gcp_hf.py:400-584: the list of policies, with one element when there is a header for the platform *)
Definition hf_policy (afs apis : list string) (fs : list (list string * list hf_term)) : res (list json) :=
  let! _ := check_tokens "gcp_hf" hf_tokens (map (fun f => (["gcp_hf"], map h_term (snd f))) fs) in
  let! r := hf_filters afs apis [] 1 0 (-1) fs in
  match fs with
  | [] => Ok []
  | _ => Ok [JDict (("rules", JList (snd (fst r))) :: fst (fst r))]
  end.
