(** Model of capirca/lib/gce_vpc_tf.py: Google Compute Engine firewall rules written as a
    Terraform configuration.  The output is modelled as the Python value that __str__
    (gce_vpc_tf.py:608-615) passes to json.dumps.  What the module takes over from gce.py word
    for word (IsDefaultDeny, the options of a header, the protocols left out for a family, the
    slices of addresses, the ports) is taken over from ModelGce.v too. *)
From Verif Require Export ModelGce.
Local Open Scope string_scope.
Local Open Scope list_scope.
Local Open Scope Z_scope.

(** gce_vpc_tf.py:168-188 _validateDirection: unlike gce.py, any list of destination tags is
    refused for outgoing traffic, even one of empty texts *)
Definition tf_direction (direction : string) (t : term) : res unit :=
  if String.eqb direction "INGRESS" then
    if negb (some (t_source_address t)) && negb (some (t_source_tag t)) then Raise (Exn "TerraformFirewallError")
    else if some (t_destination_address t) then Raise (Exn "TerraformFirewallError") else Ok tt
  else if String.eqb direction "EGRESS" then
    if some (t_source_address t) then Raise (Exn "TerraformFirewallError")
    else if negb (some (t_destination_address t)) then Raise (Exn "TerraformFirewallError")
    else if some (t_destination_tag t) then Raise (Exn "TerraformFirewallError") else Ok tt
  else Ok tt.

(** gce_vpc_tf.py:115-158 Term.__init__, with ALWAYS_PROTO_NUM of line 112 *)
Definition tf_init (direction : string) (t : term) : res (term * list pval) :=
  let! ps := term_protocols gce_numbered (t_protocol t) in
  let! _ := tf_direction direction t in
  if some (t_source_address_exclude t) && negb (some (t_source_address t)) then Raise (Exn "TerraformFirewallError")
  else if negb (some (t_source_address t)) && negb (some (t_source_tag t)) && String.eqb direction "INGRESS"
  then Raise (Exn "TerraformFirewallError")
  else if some (t_source_port t) then Raise (Exn "TerraformFirewallError")
  else if (some (t_source_address_exclude t) && some (t_source_address t))
          || (some (t_destination_address_exclude t) && some (t_destination_address t))
  then
    let! t := flatten_all t in
    if negb (some (t_source_address t)) && String.eqb direction "INGRESS" then Raise (Exn "TerraformFirewallError")
    else if negb (some (t_destination_address t)) && String.eqb direction "EGRESS" then Raise (Exn "TerraformFirewallError")
    else Ok (t, ps)
  else Ok (t, ps).

(** gce_vpc_tf.py:203-262: the part of a rule that all protocols and addresses share; [index] is
    the priority_index, [mixed6] the IPv6 pass of a mixed policy, [comment] the term's comment
    with the owner appended *)
Definition tf_dict (direction network : string) (mixed6 : bool) (comment : list string) (index : Z)
  (g : gce_term) (t : term) : res (list (string * json)) :=
  let d := [("description", JStr (join " " comment)); ("name", JStr (t_name t)); ("direction", JStr direction); ("priority", JNum index)] in
  let d := if is_empty network then d
           else jset "name" (JStr (append (last_part network) (append "-" (t_name t)))) (jset "network" (JStr network) d) in
  let d := if mixed6 then jset "name" (JStr (append (rule_name d) "-v6")) d else d in
  if (30 <? List.length (t_source_tag t))%nat then Raise (Exn "TerraformFirewallError")
  else if (70 <? List.length (t_destination_tag t))%nat then Raise (Exn "TerraformFirewallError")
  else if (10 <? List.length (g_source_accounts g))%nat || (10 <? List.length (g_target_accounts g))%nat
  then Raise (Exn "TerraformFirewallError")
  else
    let d := if some (t_source_tag t) && String.eqb direction "INGRESS" then jset "source_tags" (jstrings (t_source_tag t)) d
             else if some (t_source_tag t) && String.eqb direction "EGRESS" then jset "target_tags" (jstrings (t_source_tag t)) d else d in
    let d := if some (t_destination_tag t) && String.eqb direction "INGRESS" then jset "target_tags" (jstrings (t_destination_tag t)) d else d in
    if (some (g_source_accounts g) || some (g_target_accounts g)) && (jhas "target_tags" d || jhas "source_tags" d)
    then Raise (Exn "TerraformFirewallError")
    else
      let d := if some (g_source_accounts g) then jset "source_service_accounts" (jstrings (g_source_accounts g)) d else d in
      let d := if some (g_target_accounts g) then jset "target_service_accounts" (jstrings (g_target_accounts g)) d else d in
      Ok (match g_priority g with Some x => jset "priority" x d | None => d end).
(** gce_vpc_tf.py:345-368: one entry of allow or deny *)
Definition tf_entry (t : term) (p : pval) : json :=
  JDict (("protocol", pval_json p)
         :: if some (t_destination_port t) then [("ports", JList (map gce_port (t_destination_port t)))] else []).
(** gce_vpc_tf.py:378-406: one rule for each slice of 256 addresses, each with the next priority,
    whatever priority the rule had *)
Fixpoint tf_chunks (key : string) (several : bool) (i index : Z) (d : list (string * json)) (cs : list (list net)) : list (list (string * json)) :=
  match cs with
  | [] => []
  | c :: rest =>
      let d' := if several
                then match assoc "name" d with
                     | Some (JStr s) => jset "name" (JStr (append s (append "-" (dec i)))) d
                     | _ => d
                     end
                else d in
      jset "priority" (JNum index) (jset key (jstrings (map prefixlen_text c)) d') :: tf_chunks key several (i + 1) (index + 1) d rest
  end.
(** gce_vpc_tf.py:378-406 *)
Definition tf_addresses (key : string) (l : list net) (index : Z) (d : list (string * json)) : list (list (string * json)) :=
  let cs := chunks (List.length l) 256 l in
  tf_chunks key (1 <? List.length cs)%nat 1 index d cs.
(** gce_vpc_tf.py:81 ACTION_MAP *)
Definition tf_actions : list (string * string) := [("accept", "allow"); ("deny", "deny")].
(** gce_vpc_tf.py:187-415 ConvertToDict, up to the dictionary of names; None is the empty list
    that it returns early *)
Definition tf_rules (direction network : string) (v : ver) (mixed6 : bool) (comment : list string) (index : Z)
  (g : gce_term) (t : term) (ps : list pval) : res (option (list (list (string * json)))) :=
  let! d := tf_dict direction network mixed6 comment index g t in
  if mixed6 && negb (some (t_source_address t)) && negb (some (t_destination_address t))
     && (jhas "target_tags" d || jhas "source_tags" d) then Ok None
  else
    let saddrs := gce_addresses v (t_source_address t) in
    let daddrs := gce_addresses v (t_destination_address t) in
    if some (t_source_address t) && negb (some saddrs) then Ok None
    else if some (t_destination_address t) && negb (some daddrs) then Ok None
    else
      let ps := if some ps then filter (fun p => negb (proto_left_out v p)) ps else [PName "all"] in
      let d := if some (t_logging t) then jset "log_config" (JDict [("metadata", JStr "INCLUDE_ALL_METADATA")]) d else d in
      if negb (some ps) then Ok None
      else if (256 <? List.length (t_destination_port t))%nat then Raise (Exn "TerraformFirewallError")
      else
        match t_action t with
        | [] => Raise (Exn "IndexError")
        | a :: _ =>
            match assoc a tf_actions with
            | None => Raise (Exn "KeyError")
            | Some key =>
                let d := jset key (JList (map (tf_entry t) ps)) d in
                let rules := if some saddrs then tf_addresses "source_ranges" saddrs index d
                             else if some daddrs then tf_addresses "destination_ranges" daddrs index d
                             else [d] in
                if existsb (fun r => 63 <? slen (rule_name r)) rules then Raise (Exn "TerraformFirewallError") else Ok (Some rules)
            end
        end.
(** gce_vpc_tf.py:417-424: the rules of a term by name *)
Definition by_name (rules : list (list (string * json))) : list (string * json) :=
  fold_left (fun d r => jset (rule_name r) (JDict r) d) rules [].
(** gce_vpc_tf.py:187-424 ConvertToDict: no dictionary of rules, or one *)
Definition tf_convert (direction network : string) (v : ver) (mixed6 : bool) (comment : list string) (index : Z)
  (g : gce_term) (t : term) (ps : list pval) : res (list (list (string * json))) :=
  let! r := tf_rules direction network v mixed6 comment index g t ps in
  Ok (match r with Some rules => [by_name rules] | None => [] end).

(** gce_vpc_tf.py:618-653 GetAttributeCount *)
Definition tf_count (d : list (string * json)) : Z :=
  (if list_length "destination_ranges" d =? 0 then list_length "source_ranges" d else list_length "destination_ranges" d)
  + (proto_ports "allow" d + proto_ports "deny" d)
  + (list_length "source_tags" d + list_length "target_tags" d)
  + (list_length "source_service_accounts" d + list_length "target_service_accounts" d).
(** gce_vpc_tf.py:589-593: the attributes of all rules of a dictionary *)
Definition tf_count_all (d : list (string * json)) : Z :=
  fold_left (fun n e => match snd e with JDict r => n + tf_count r | _ => n end) d 0.

(** gce_vpc_tf.py:523-539: what becomes of a last term that is a default deny; unlike gce.py it
    gets no priority of its own *)
Definition tf_default_deny (i : gce_info) (g : gce_term) : gce_term :=
  let t := set_protocol ["all"] (g_term g) in
  let any := map any_ip (gce_families (gi_af i)) in
  mkGceTerm (if String.eqb (gi_direction i) "EGRESS" then set_destination_address any t else set_source_address any t)
    (g_priority g) (g_source_accounts g) (g_target_accounts g).
(** gce_vpc_tf.py:523-539 *)
Fixpoint tf_fill_last (i : gce_info) (gs : list gce_term) : list gce_term :=
  match gs with
  | [] => []
  | [g] => [if is_default_deny g then tf_default_deny i g else g]
  | g :: rest => g :: tf_fill_last i rest
  end.

(** gce_vpc_tf.py:578-601: the rules of a term for each family.  [index] is priority_counter,
    [count] the attributes so far; the results are the dictionaries, the comment, the count and
    the counter. *)
Fixpoint tf_pass (i : gce_info) (mx : Z) (g : gce_term) (vs : list ver) (comment : list string) (count index : Z)
  : res (list (list (string * json)) * list string * Z * Z) :=
  match vs with
  | [] => Ok ([], comment, count, index)
  | v :: rest =>
      let! tp := tf_init (gi_direction i) (g_term g) in
      let comment := comment ++ owner_line (t_owner (g_term g)) in
      let mixed6 := String.eqb (gi_af i) "mixed" && match v with V6 => true | V4 => false end in
      let! ds := tf_convert (gi_direction i) (gi_network i) v mixed6 comment index g (fst tp) (snd tp) in
      let count' := fold_left (fun n d => n + tf_count_all d) ds count in
      if negb (mx =? 0) && some ds && (mx <? count') then Raise (Exn "ExceededAttributeCountError")
      else
        let index' := fold_left (fun n d => n + Zlen d) ds index in
        let! more := tf_pass i mx (mkGceTerm (fst tp) (g_priority g) (g_source_accounts g) (g_target_accounts g)) rest comment count' index' in
        Ok (ds ++ fst (fst (fst more)), snd (fst (fst more)), snd (fst more), snd more)
  end.
(** gce_vpc_tf.py:541-576 *)
Fixpoint tf_terms (i : gce_info) (mx today : Z) (hc : list string) (names : list string) (count index : Z) (gs : list gce_term)
  : res (list (list (string * json)) * Z * Z) :=
  match gs with
  | [] => Ok ([], count, index)
  | g :: rest =>
      let t := g_term g in
      if t_stateless_reply t then tf_terms i mx today hc names count index rest
      else
        let! name := fix_term_length abbreviation_table (if String.eqb (gi_direction i) "EGRESS" then append (t_name t) "-e" else t_name t)
                       false false 53 in
        if str_in name names then Raise (Exn "TerraformFirewallError")
        else
          let names := name :: names in
          if expired today t then tf_terms i mx today hc names count index rest
          else if some (t_option t) then Raise (Exn "TerraformFirewallError")
          else if negb (active_on "gce_vpc_tf" t) then tf_terms i mx today hc names count index rest
          else
            let shared := negb (some (t_comment t)) in
            let! r := tf_pass i mx (mkGceTerm (set_name name t) (g_priority g) (g_source_accounts g) (g_target_accounts g))
                        (gce_families (gi_af i)) (if shared then hc else t_comment t) count index in
            let! more := tf_terms i mx today (if shared then snd (fst (fst r)) else hc) names (snd (fst r)) (snd r) rest in
            Ok (fst (fst (fst r)) ++ fst (fst more), snd (fst more), snd more)
  end.
(** gce_vpc_tf.py:469-601 _TranslatePolicy: the headers for this platform.  The options are read
    as in gce.py, but there must be a network (lines 481-521).  The maximum, the count and the
    priority of one header are carried on to the next. *)
Fixpoint tf_translate (order : list string) (today mx count index : Z) (fs : list (gce_header * list gce_term)) : res (list (list (string * json))) :=
  match fs with
  | [] => Ok []
  | (h, gs) :: rest =>
      let i := gce_options order (gh_options h) in
      let mx := match gi_max i with Some n => n | None => mx end in
      if is_empty (gi_network i) then Raise (Exn "TerraformFirewallError")
      else if negb (some gs) then Raise (Exn "IndexError")
      else
        let! r := tf_terms i mx today (gh_comment h) [] count index (tf_fill_last i gs) in
        let! more := tf_translate order today mx (snd (fst r)) (snd r) rest in
        Ok (fst (fst r) ++ more)
  end.
(** gce_vpc_tf.py:447-467 _BuildTokens *)
Definition tf_tokens : tokens := mkTokens
  (filter (fun s => negb (str_in s ["icmp_type"; "verbatim"])) (supported default_tokens)
   ++ ["destination_tag"; "expiration"; "owner"; "priority"; "source_tag"; "source_service_accounts"; "target_service_accounts"])
  [("action", ["accept"; "deny"])].
(** A whole policy: the check of aclgenerator.py:269-322, the translation, and the value that
    gce_vpc_tf.py:471, 606-615 writes *)
Definition tf_policy (order : list string) (today : Z) (fs : list (gce_header * list gce_term)) : res json :=
  let! _ := check_tokens "gce_vpc_tf" tf_tokens (map (fun f => (["gce_vpc_tf"], map g_term (snd f))) fs) in
  let! ds := tf_translate order today 0 0 1 fs in
  Ok (JDict [("resource", JDict [("google_compute_firewall", JList (map JDict ds))])]).
