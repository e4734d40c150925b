(** Kubernetes network policies (k8s.py). *)
From Verif Require Export ModelOpenConfig.
Local Open Scope string_scope.
Local Open Scope list_scope.
Local Open Scope Z_scope.

(** k8s.py:43-66 IsDefaultDeny, for the attributes of [term]: those whose values are neither
    texts nor lists are not looked at *)
Definition k8_deny_skips : list string :=
  ["flattened"; "flattened_addr"; "flattened_saddr"; "flattened_daddr"; "action"; "comment"; "name"; "logging"; "direction";
   "ttl"; "traffic_class"; "expiration"; "counter"; "stateless_reply"; "translated"].
(** k8s.py:43-66 *)
Definition k8_default_deny (t : term) : bool :=
  str_in "deny" (t_action t) && forallb (fun f => str_in (fst f) k8_deny_skips || negb (truthy (snd f))) (term_fields t).
(** k8s.py:89-94, aclgenerator.py:121-132: the names are those of the class, the numbers those
    of the base class; ipip, the only name that would be converted, is not among the names *)
Definition k8_protocols (ps : list string) : res unit :=
  if forallb (fun p => str_in p ["tcp"; "udp"; "sctp"; "all"] || str_in p (map (fun kv => dec (snd kv)) proto_map)) ps
  then Ok tt else Raise (Exn "UnsupportedFilterError").
(** k8s.py:139-156 _validateDirection *)
Definition k8_direction (dir : string) (t : term) : res unit :=
  if String.eqb dir "INGRESS" then
    if negb (some (t_source_address t)) then Raise (Exn "K8sNetworkPolicyError")
    else if some (t_destination_address t) then Raise (Exn "K8sNetworkPolicyError") else Ok tt
  else
    if some (t_source_address t) then Raise (Exn "K8sNetworkPolicyError")
    else if negb (some (t_destination_address t)) then Raise (Exn "K8sNetworkPolicyError") else Ok tt.
(** The addresses of the other end of the traffic. *)
Definition k8_side (dir : string) (t : term) : list net * list net :=
  if String.eqb dir "INGRESS" then (t_source_address t, t_source_address_exclude t) else (t_destination_address t, t_destination_address_exclude t).
(** k8s.py:96-133 Term.__init__: false when the term becomes None.  Simplified: of FlattenAll
    only the list that is looked at is computed. *)
Definition k8_init (dir : string) (t : term) : res bool :=
  let! _ := k8_protocols (t_protocol t) in
  if str_in "deny" (t_action t) then (if k8_default_deny t then Ok true else Raise (Exn "K8sNetworkPolicyError"))
  else
    let! _ := k8_direction dir t in
    if some (t_source_port t) then Raise (Exn "K8sNetworkPolicyError")
    else
      let (inc, exc) := k8_side dir t in
      if some exc && some inc then
        let! l := address_list_exclude inc exc false in
        Ok (some l)
      else Ok true.
(** k8s.py:84, 173; simplified: the names of terms hold no newline, before which $ would match *)
Definition k8_char (c : ascii) : bool :=
  let n := nat_of_ascii c in ((97 <=? n) && (n <=? 122))%nat || ((48 <=? n) && (n <=? 57))%nat.
(** k8s.py:84, 173 *)
Definition k8_name_ok (s : string) : bool :=
  let cs := list_ascii_of_string s in
  (2 <=? List.length cs)%nat && (List.length cs <=? 253)%nat
  && forallb (fun c => k8_char c || Ascii.eqb c "-" || Ascii.eqb c ".") cs
  && k8_char (hd "-"%char cs) && k8_char (last cs "-"%char).
(** k8s.py:202-234 *)
Definition k8_peer (exc : list net) (n : net) : json :=
  JDict [("ipBlock", JDict (("cidr", JStr (prefixlen_text n))
                            :: (if some exc then [("except", JList (map (fun e => JStr (prefixlen_text e)) exc))] else [])))].
(** k8s.py:226-249 *)
Definition k8_range (r : prange) : list (string * json) :=
  if fst r =? snd r then [("port", JNum (fst r))] else [("port", JNum (fst r)); ("endPort", JNum (snd r))].
(** k8s.py:226-249, one protocol *)
Definition k8_port (ports : list prange) (p : string) : list json :=
  match ports with
  | [] => [JDict [("protocol", JStr (upper p))]]
  | _ => map (fun r => JDict (k8_range r ++ [("protocol", JStr (upper p))])) ports
  end.
(** k8s.py:202-256 *)
Definition k8_rules (dir : string) (t : term) : list (string * json) :=
  let (inc, exc) := k8_side dir t in
  [(if String.eqb dir "INGRESS" then "ingress" else "egress",
    JList [JDict [("ports", JList (concat (map (k8_port (t_destination_port t)) (t_protocol t))));
                  (if String.eqb dir "INGRESS" then "from" else "to", JList (map (k8_peer exc) inc))]])].
(** k8s.py:158-256 ConvertToDict *)
Definition k8_dict (dir : string) (comment : list string) (t : term) : res json :=
  if negb (k8_name_ok (t_name t)) then Raise (Exn "K8sNetworkPolicyError")
  else
    Ok (JDict [("apiVersion", JStr "networking.k8s.io/v1"); ("kind", JStr "NetworkPolicy");
               ("metadata", JDict [("name", JStr (t_name t));
                                   ("annotations", JDict ((if some comment then [("comment", JStr (join " " comment))] else [])
                                                          ++ match t_owner t with Some o => if is_empty o then [] else [("owner", JStr o)] | None => [] end))]);
               ("spec", JDict ([("podSelector", JDict []);
                                ("policyTypes", JList [JStr (if String.eqb dir "INGRESS" then "Ingress" else "Egress")])]
                               ++ if str_in "deny" (t_action t) then [] else k8_rules dir t))]).
(** k8s.py:310-351: the terms of a header *)
Fixpoint k8_terms (dir : string) (hc : list string) (today : Z) (names : list string) (ts : list term) : res (list json) :=
  match ts with
  | [] => Ok []
  | t :: rest =>
      if t_stateless_reply t then k8_terms dir hc today names rest
      else
        let! name := fix_term_length abbreviation_table (if String.eqb dir "EGRESS" then append (t_name t) "-e" else t_name t) false false 62 in
        if str_in name names then Raise (Exn "K8sNetworkPolicyError")
        else if expired today t then k8_terms dir hc today (name :: names) rest
        else if some (t_option t) then Raise (Exn "K8sNetworkPolicyError")
        else if negb (active_on "k8s" t) then k8_terms dir hc today (name :: names) rest
        else
          let! rendered := k8_init dir t in
          let! new := if rendered : bool
                      then let! j := k8_dict dir (if some (t_comment t) then t_comment t else hc) (set_name name t) in Ok [j]
                      else Ok [] in
          let! more := k8_terms dir hc today (name :: names) rest in
          Ok (new ++ more)
  end.
(** k8s.py:302-307 *)
Definition k8_way (options : list string) : string := fst (pick ["INGRESS"; "EGRESS"] "INGRESS" options).
(** k8s.py:295-351; a header is its options for k8s and its comment *)
Fixpoint k8_filters (today : Z) (fs : list ((list string * list string) * list term)) : res (list json) :=
  match fs with
  | [] => Ok []
  | ((options, hc), terms) :: rest =>
      let! items := k8_terms (k8_way options) hc today [] terms in
      let! more := k8_filters today rest in
      Ok (items ++ more)
  end.
(** k8s.py:270-286: source-port, which is not the name of an attribute, stays supported *)
Definition k8_tokens : tokens := mkTokens
  (filter (fun s => negb (str_in s ["icmp_type"; "source-port"; "verbatim"])) (supported default_tokens) ++ ["expiration"; "owner"])
  [("action", ["accept"; "deny"])].
(** k8s.py:288-364: the items of the list *)
Definition k8_policy (today : Z) (fs : list ((list string * list string) * list term)) : res (list json) :=
  let! _ := check_tokens "k8s" k8_tokens (map (fun f => (["k8s"], snd f)) fs) in
  k8_filters today fs.
