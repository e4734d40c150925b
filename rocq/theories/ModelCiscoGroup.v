(** Model of the rest of capirca/lib/cisco.py, ciscoxr.py and cisconx.py: standard access
    lists, object groups, whole configurations and the removal of duplicate groups. Texts
    are lists of the strings that the code joins by newlines. Log messages are not modelled;
    of several errors in one policy, the code may raise another one first, because it checks
    each term while it selects terms. *)
From Verif Require Export ModelCisco ModelInclude.
Local Open Scope string_scope.
Local Open Scope list_scope.
Local Open Scope Z_scope.

(** the newline that joins the lines (cisco.py:280) *)
Definition lf : string := String newline "".
(** str.isdigit on ASCII text, and int() of it *)
Definition digits (s : string) : bool := negb (is_empty s) && forall_char is_digit s.
(** int() of digits, from the left (cisco.py:1000) *)
Fixpoint digits_value_aux (s : string) (acc : Z) : Z :=
  match s with EmptyString => acc | String c s' => digits_value_aux s' (10 * acc + (Z.of_nat (nat_of_ascii c) - 48)) end.
(** int(filter_name) (cisco.py:1000, 1005) *)
Definition digits_value (s : string) : Z := digits_value_aux s 0.

(** What the three classes change: cisco.py:911-916, ciscoxr.py:24-27, 55-74, cisconx.py:36-39.
    The platform of the terms of object groups is 'cisco' unless _GetObjectGroupTerm passes
    another one (cisco.py:1115-1117, ciscoxr.py:67-74). *)
Record cisco_class := mkClass { k_platform : string; k_proto_int : bool; k_group_platform : string; k_group_protos : list string }.
(** cisco.py:908-916 *)
Definition class_ios : cisco_class := mkClass "cisco" true "cisco" allowed_proto_strings.
(** ciscoxr.py:21-74 *)
Definition class_xr : cisco_class := mkClass "ciscoxr" false "ciscoxr" (allowed_proto_strings ++ ["pcp"; "esp"]).
(** cisconx.py:29-39 *)
Definition class_nx : cisco_class := mkClass "cisconx" false "cisco" allowed_proto_strings.

(** cisco.py:109-114, 476-481, 819-824: terms of other platforms are empty *)
Definition elsewhere (platform : string) (t : term) : bool :=
  (some (t_platform t) && negb (str_in platform (t_platform t))) || (some (t_platform_exclude t) && str_in platform (t_platform_exclude t)).
(** _ACTION_TABLE.get(str(action[0])) formatted by %s *)
Definition action_text (t : term) : res string :=
  match t_action t with
  | [] => Raise (Exn "IndexError")
  | a :: _ => Ok (match assoc a cisco_actions with Some s => s | None => "None" end)
  end.
(** cisco.py:120-123, 504-508, 839-843 *)
Definition verbatim_lines (platform : string) (t : term) : list string :=
  flat_map (fun v => if String.eqb (fst v) platform then [snd v] else []) (t_verbatim t).

(** ** Standard access lists (cisco.py:64-196 TermStandard; the platform 'arista' is not modelled) *)
Definition standard_term (platform name : string) (verbose : bool) (t : term) : res (list string) :=
  if some (t_protocol t) || some (t_icmp_type t) || some (t_source_address t) || some (t_source_address_exclude t)
     || some (t_destination_address t) || some (t_destination_address_exclude t) || some (t_option t)
     || some (t_source_port t) || some (t_destination_port t) then Raise (Exn "StandardAclTermError")
  else if some (t_dscp_match t) then Raise (Exn "TypeError")   (* ' dscp' + list *)
  else
    let logstring := if some (t_logging t) then " log" else "" in
    if elsewhere platform t then Ok []
    else if some (t_verbatim t) then Ok (verbatim_lines platform t)
    else
      let v4 := filter (fun n => negb (ver_eqb (nver n) V6)) (t_address t) in
      let comments := wrap_words (t_comment t) 70 lf in
      let! action := action_text t in
      if digits name then
        let rule rest := ("access-list " ++ name ++ " " ++ action ++ " " ++ rest ++ logstring)%string in
        Ok ((if verbose then map (fun c => ("access-list " ++ name ++ " remark " ++ c)%string) (t_name t :: comments) else [])
            ++ (if some v4
                then map (fun n => rule (if nlen n =? 32 then addr_text V4 (naddr n)
                                         else (addr_text V4 (naddr n) ++ " " ++ addr_text V4 (hostmask n))%string)) v4
                else [rule "any"]))
      else
        let rule rest := (" " ++ action ++ " " ++ rest ++ logstring)%string in
        Ok ((if verbose then (" remark " ++ t_name t)%string :: (match comments with c :: _ => if is_empty c then [] else map (append " remark ") comments | [] => [] end) else [])
            ++ (if some v4
                then map (fun n => rule (if nlen n =? 32 then ("host " ++ addr_text V4 (naddr n))%string
                                         else (addr_text V4 (naddr n) ++ " " ++ addr_text V4 (hostmask n))%string)) v4
                else [rule "any"])).

(** ** Object groups (cisco.py:199-280 ObjectGroup) *)
Definition version_of (af : Z) : ver := if af =? 6 then V6 else V4.
(** cisco.py:252-264: the group of one side of a term; [seen] is netgroups *)
Definition network_group (af : Z) (seen : list string) (addrs : list net) : list string * list string :=
  match address_of_version addrs (Some (version_of af)) with
  | [] => ([], seen)
  | n :: rest =>
      if str_in (nptoken n) seen then ([], seen)
      else (("object-group network ipv" ++ dec af ++ " " ++ nptoken n)%string
            :: map (fun m => (" " ++ addr_text (nver m) (naddr m) ++ "/" ++ dec (nlen m))%string) (n :: rest) ++ [("exit" ++ lf)%string],
            nptoken n :: seen)
  end.
(** cisco.py:267-278; [seen] are the keys of ports *)
Definition port_key (p : prange) : string := (dec (fst p) ++ "-" ++ dec (snd p))%string.
(** cisco.py:267-278 *)
Fixpoint port_groups (seen : list string) (ports : list prange) : list string * list string :=
  match ports with
  | [] => ([], seen)
  | p :: rest =>
      if str_in (port_key p) seen then port_groups seen rest
      else
        let (more, seen) := port_groups (port_key p :: seen) rest in
        (("object-group port " ++ port_key p)%string
         :: (if negb (fst p =? snd p) then (" range " ++ dec (fst p) ++ " " ++ dec (snd p))%string else (" eq " ++ dec (fst p))%string)
         :: ("exit" ++ lf)%string :: more, seen)
  end.
(** cisco.py:241-278 *)
Fixpoint group_definitions (af : Z) (nets ports : list string) (terms : list term) : list string :=
  match terms with
  | [] => []
  | t :: rest =>
      let (g1, nets) := network_group af nets (t_source_address t) in
      let (g2, nets) := network_group af nets (t_destination_address t) in
      let (g3, ports) := port_groups ports (t_source_port t ++ t_destination_port t) in
      g1 ++ g2 ++ g3 ++ group_definitions af nets ports rest
  end.
(** cisco.py:235-280 ObjectGroup.__str__ *)
Definition object_groups (af : Z) (terms : list term) : list string := lf :: group_definitions af [] [] terms.

(** ** Terms that use them (cisco.py:792-905 ObjectGroupTerm) *)
Definition group_protocols (k : cisco_class) (af : Z) (ps : list pval) : list (option pval) :=
  match ps with
  | [] => [Some (PName (if af =? 6 then "ipv6" else if String.eqb (k_group_platform k) "ciscoxr" then "ipv4" else "ip"))]
  | _ => map (fun p => match p with
                       | PName s => if str_in s (k_group_protos k) then Some (PName s)
                                    else match assoc s proto_map with Some n => Some (PNum n) | None => None end
                       | PNum n => if n =? 4 then Some (PNum n) else None
                       end) ps
  end.
(** cisco.py:859-868: the name of a side is the parent token of its first address *)
Definition side_name (l : list net) : string := match l with [] => "any" | n :: _ => nptoken n end.
(** cisco.py:889-893 *)
Definition side_text (name : string) : string := if negb (is_empty name) && negb (String.eqb name "any") then ("net-group " ++ name)%string else name.
(** cisco.py:894-902 *)
Definition port_text (p : option prange) : string := match p with Some p => (" port-group " ++ port_key p)%string | None => "" end.
(** cisco.py:887-905 _TermletToStr *)
Definition group_termlet (action proto saddr : string) (sport : option prange) (daddr : string) (dport : option prange) : string :=
  rstrip (" " ++ action ++ " " ++ proto ++ " " ++ side_text saddr ++ port_text sport ++ " " ++ side_text daddr ++ port_text dport)%string.
(** cisco.py:870-875 *)
Definition group_ports (l : list prange) : list (option prange) := if some l then map Some l else [None].
(** cisco.py:816-885 *)
Definition group_term (k : cisco_class) (af : Z) (verbose : bool) (t : term) : res (list string) :=
  let! ps := term_protocols ["ipip"] (t_protocol t) in
  if elsewhere (k_group_platform k) t then Ok []
  else
    let comments := wrap_words (t_comment t) 70 lf in
    let ret := lf :: (if verbose then (" remark " ++ t_name t)%string :: (match comments with c :: _ => if is_empty c then [] else map (append " remark ") comments | [] => [] end) else []) in
    if some (t_verbatim t) then Ok (ret ++ verbatim_lines (k_group_platform k) t)
    else
      let! action := action_text t in
      Ok (ret ++ flat_map (fun sp => flat_map (fun dp => map (fun p =>
                   group_termlet action (proto_text p) (side_name (t_source_address t)) sp (side_name (t_destination_address t)) dp)
                   (group_protocols k af ps)) (group_ports (t_destination_port t))) (group_ports (t_source_port t))).

(** ** Whole configurations *)

(** A header for the platform: its options, of which the first is the name of the filter, and
    its comments. *)
Record cheader := mkCHeader { ch_options : list string; ch_comment : list string }.
(** cisco.py:1108-1113: one access list: name, type, texts of its terms, terms of its object
    groups, options *)
Record centry := mkEntry { e_name : string; e_type : string; e_terms : list string; e_objects : option (Z * list term); e_replace : bool; e_comment : list string }.
(** cisco.py:1070-1096: terms with addresses of the other family only are left out *)
Definition has_addresses (af : Z) (l : list net) : bool := negb (some l) || some (address_of_version l (Some (version_of af))).
(** cisco.py:1070-1096 *)
Definition group_select (k : cisco_class) (af : Z) (verbose : bool) (today : Z) (terms : list term) : res (list term) :=
  (* the family of FixHighPorts and restrict_address_family is inet for both types *)
  let! ts := cisco_select (mkCisco (k_platform k) 4 (k_proto_int k) false true verbose) today [] terms in
  Ok (filter (fun t => has_addresses af (t_source_address t) && has_addresses af (t_destination_address t)) ts).
(** the text of each term; empty ones are left out (cisco.py:1354-1357) *)
Definition shown (l : list (list string)) : list string := filter (fun s => negb (is_empty s)) (map (join lf) l).
(** cisco.py:996-1113: one header and type *)
Definition reserved (n : Z) : bool := ((1 <=? n) && (n <? 100)) || ((1300 <=? n) && (n <? 2000)).
(** cisco.py:996-1113 *)
Definition cisco_entry (k : cisco_class) (today : Z) (verbose dsmo mixed : bool) (name type : string) (h : cheader) (opts : list string) (terms : list term) : res centry :=
  let entry name objs l := mkEntry name type (shown l) objs (str_in "configure_replace_compatible" opts) (ch_comment h) in
  if String.eqb type "extended" && digits name && reserved (digits_value name) then Raise (Exn "UnsupportedCiscoAccessListError")
  else if String.eqb type "standard" && digits name && negb (reserved (digits_value name)) then Raise (Exn "UnsupportedCiscoAccessListError")
  else if String.eqb type "standard" then
    let! ts := cisco_select (mkCisco (k_platform k) 4 (k_proto_int k) false true verbose) today [] terms in
    let! l := mapM (standard_term (k_platform k) name verbose) ts in Ok (entry name None l)
  else if String.eqb type "extended" then
    let c := mkCisco (k_platform k) 4 (k_proto_int k) dsmo true verbose in
    let! ts := cisco_select c today [] terms in
    let! l := mapM (cisco_term c) ts in Ok (entry name None l)
  else if String.eqb type "object-group" then
    let! ts := group_select k 4 verbose today terms in
    let! l := mapM (group_term k 4 verbose) ts in Ok (entry name (Some (4, ts)) l)
  else if String.eqb type "object-group-inet6" then
    let! ts := group_select k 6 verbose today terms in
    let! l := mapM (group_term k 6 verbose) ts in Ok (entry name (Some (6, ts)) l)
  else if String.eqb type "inet6" then
    let c := mkCisco (k_platform k) 6 (k_proto_int k) false true verbose in
    let! ts := cisco_select c today [] terms in
    let! l := mapM (cisco_term c) ts in Ok (entry (if mixed then ("ipv6-" ++ name)%string else name) None l)
  else Ok (entry name None []).   (* enable_dsmo: no branch renders a term; _FilterCmd fails later *)
(** cisco.py:958-994: the options of a header; the last header decides about the removal of
    duplicate groups and about the remarks of all headers. *)
Definition good_filters : list string := ["extended"; "standard"; "object-group"; "object-group-inet6"; "inet6"; "mixed"; "enable_dsmo"].
(** cisco.py:958-1113 *)
Fixpoint cisco_entries (k : cisco_class) (today : Z) (flags : option (bool * bool)) (hs : list (cheader * list term)) : res (list centry * option (bool * bool)) :=
  match hs with
  | [] => Ok ([], flags)
  | (h, terms) :: rest =>
      match ch_options h with
      | [] => Raise (Exn "AttributeError")
      | name :: _ =>
          let verbose := negb (str_in "noverbose" (ch_options h)) in
          let opts := remove_first "noverbose" (ch_options h) in
          let dedup := str_in "remove_duplicate_network_objectgroups" opts in
          let opts := remove_first "remove_duplicate_network_objectgroups" opts in
          let type := nth 1 opts "extended" in
          let dsmo := String.eqb (nth 2 opts "") "enable_dsmo" in
          if negb (str_in type good_filters) then Raise (Exn "UnsupportedCiscoAccessListError")
          else
            let! es := mapM (fun ty => cisco_entry k today verbose dsmo (String.eqb type "mixed") name ty h opts terms)
                         (if String.eqb type "mixed" then ["extended"; "inet6"] else [type]) in
            let! (more, flags) := cisco_entries k today (Some (verbose, dedup)) rest in
            Ok (es ++ more, flags)
      end
  end.
(** cisco.py:1287-1311 _FilterCmd, 1313-1334 _AppendTargetByFilterType; ciscoxr.py:29-53;
    cisconx.py:49-83 *)
Definition filter_lines (k : cisco_class) (name type : string) (replace : bool) : res (list string) :=
  if String.eqb (k_platform k) "ciscoxr" then
    let cmd := ((if String.eqb type "inet6" || String.eqb type "object-group-inet6" then "ipv6" else "ipv4") ++ " access-list " ++ name)%string in
    Ok [("no " ++ cmd)%string; cmd]
  else if String.eqb (k_platform k) "cisconx" then
    if String.eqb type "extended" || String.eqb type "object-group" then Ok [("no ip access-list " ++ name)%string; ("ip access-list " ++ name)%string]
    else if String.eqb type "inet6" || String.eqb type "object-group-inet6" then Ok [("no ipv6 access-list " ++ name)%string; ("ipv6 access-list " ++ name)%string]
    else Raise (Exn "UnsupportedNXosAccessListError")
  else if String.eqb type "standard" && digits name then Ok [("no access-list " ++ name)%string]
  else
    let! cmd := (if String.eqb type "standard" then Ok ("ip access-list standard " ++ name)%string
                 else if String.eqb type "extended" || String.eqb type "object-group" then Ok ("ip access-list extended " ++ name)%string
                 else if String.eqb type "inet6" || String.eqb type "object-group-inet6" then Ok ("ipv6 access-list " ++ name)%string
                 else Raise (Exn "UnsupportedCiscoAccessListError")) in
    Ok (if replace then [cmd] else [("no " ++ cmd)%string; cmd]).
(** cisco.py:1336-1345 _RepositoryTagsHelper; cisconx.py:41-46 *)
Definition tag_lines (k : cisco_class) (name type : string) : list string :=
  if String.eqb (k_platform k) "cisconx" then add_repository_tags " remark " false true true true
  else if String.eqb type "standard" && digits name then add_repository_tags ("access-list " ++ name ++ " remark ") true false false false
  else add_repository_tags " remark " true false false false.
(** cisco.py:1347-1394 __str__ up to the removal of duplicates *)
Definition header_remarks (k : cisco_class) (e : centry) : list string :=
  map (fun line => if String.eqb (k_platform k) "cisco" && String.eqb (e_type e) "standard" && digits (e_name e)
                   then ("access-list " ++ e_name e ++ " remark " ++ line)%string else (" remark " ++ line)%string)
    (flat_map (split_char newline) (wrap_words (e_comment e) 70 lf)).
(** cisco.py:1357-1386 *)
Definition entry_text (k : cisco_class) (verbose : bool) (e : centry) : res (list string) :=
  let! cmd := filter_lines k (e_name e) (e_type e) (e_replace e) in
  Ok (cmd ++ (if verbose then tag_lines k (e_name e) (e_type e) ++ header_remarks k e else []) ++ e_terms e).
(** cisco.py:1347-1386 *)
Fixpoint cisco_target (k : cisco_class) (verbose : bool) (target : list string) (es : list centry) : res (list string) :=
  match es with
  | [] => Ok target
  | e :: rest =>
      let! l := entry_text k verbose e in
      let target := (match e_objects e with
                     | Some (af, (_ :: _) as ts) => [join lf (object_groups af ts)]
                     | _ => []
                     end) ++ target ++ l ++ (if e_replace e then [] else [""; "exit"; ""]) in
      cisco_target k verbose target rest
  end.

(** ** Removal of duplicate network groups *)

(** cisco.py:1159-1201 _get_duplicate_object_groups: inside a group, its name, its lines so
    far, the first name for each content, the duplicates. *)
Record dup_state := mkDup { d_in : bool; d_name : string; d_lines : list string; d_groups : list (string * string); d_dups : list (string * string) }.
(** cisco.py:1159-1201, one line *)
Definition dup_step (af : string) (st : dup_state) (line : string) : dup_state :=
  if starts_with "object-group" line then
    match split_ws line with
    | [_; ty; f; name] => mkDup (d_in st || (String.eqb ty "network" && String.eqb f af)) name (d_lines st) (d_groups st) (d_dups st)
    | _ => st
    end
  else if starts_with "exit" line && d_in st then
    let key := join lf (d_lines st) in
    match assoc key (d_groups st) with
    | Some first => mkDup false (d_name st) [] (d_groups st) ((d_name st, first) :: d_dups st)
    | None => mkDup false (d_name st) [] ((key, d_name st) :: d_groups st) (d_dups st)
    end
  else if d_in st then mkDup true (d_name st) (d_lines st ++ [line]) (d_groups st) (d_dups st)
  else st.
(** cisco.py:1159-1201 *)
Definition duplicate_groups (text af : string) : list (string * string) :=
  d_dups (fold_left (dup_step af) (splitlines text) (mkDup false "" [] [] [])).
(** cisco.py:1203-1245 _remove_object_groups *)
Fixpoint remove_lines (af : string) (names : list string) (inside skip : bool) (lines : list string) : list string :=
  match lines with
  | [] => []
  | line :: rest =>
      if starts_with "object-group" line then
        let '(inside, skip) :=
          match split_ws line with
          | [_; ty; f; name] => if String.eqb ty "network" && String.eqb f af then (true, skip || str_in name names) else (inside, false)
          | _ => (inside, false)
          end in
        if skip then remove_lines af names inside skip rest else line :: remove_lines af names inside skip rest
      else if starts_with "exit" line && inside then
        if skip then remove_lines af names false false rest else line :: remove_lines af names false false rest
      else if skip then remove_lines af names inside skip rest
      else line :: remove_lines af names inside skip rest
  end.
(** cisco.py:1203-1245 *)
Definition remove_object_groups (text : string) (names : list string) (af : string) : string :=
  join lf (remove_lines af names false false (splitlines text)).
(** cisco.py:1247-1285 _replace_object_groups_references *)
Fixpoint replace_fields (groups : list (string * string)) (after : bool) (fields : list string) : list string :=
  match fields with
  | [] => []
  | w :: r =>
      let w := if after then match assoc w groups with Some first => first | None => w end else w in
      w :: replace_fields groups (String.eqb w "net-group") r
  end.
(** cisco.py:1247-1285, the loop *)
Fixpoint replace_lines (af : string) (groups : list (string * string)) (inside : string) (lines : list string) : list string :=
  match lines with
  | [] => []
  | line :: rest =>
      if starts_with "ip access-list extended " line || starts_with "ipv4 access-list " line then line :: replace_lines af groups "ipv4" rest
      else if starts_with "ipv6 access-list " line then line :: replace_lines af groups "ipv6" rest
      else if starts_with "exit" line then line :: replace_lines af groups "" rest
      else if String.eqb af inside then
        let fields := split_ws line in
        (if (2 <=? List.length fields)%nat then (" " ++ join " " (replace_fields groups false fields))%string else line)
        :: replace_lines af groups inside rest
      else line :: replace_lines af groups inside rest
  end.
(** cisco.py:1247-1285 *)
Definition replace_references (text : string) (groups : list (string * string)) (af : string) : string :=
  join lf (replace_lines af groups "" (splitlines text)).
(** cisco.py:1119-1157 _remove_duplicate_objects *)
Definition remove_duplicates_of (target af : string) : string :=
  let d := duplicate_groups target af in
  replace_references (remove_object_groups target (map fst d) af) d af.
(** cisco.py:1119-1157 *)
Definition remove_duplicate_objects (target : string) : string := remove_duplicates_of (remove_duplicates_of target "ipv4") "ipv6".

(** cisco.py:1391-1393: the text of a policy *)
Definition cisco_text (k : cisco_class) (today : Z) (hs : list (cheader * list term)) : res string :=
  let! (es, flags) := cisco_entries k today None hs in
  match flags with
  | None => Raise (Exn "AttributeError")
  | Some (verbose, dedup) =>
      let! target := cisco_target k verbose (add_repository_tags "! " true true true false) es in
      let text := join lf target in
      Ok (if dedup then remove_duplicate_objects text else text)
  end.
