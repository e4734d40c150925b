(** Aruba session access lists (aruba.py).  The class has no attribute _PLATFORM (aruba.py:233-245), so
    that the check of keywords in aclgenerator.py:276-311 looks for headers of the platform None and
    finds none: no keyword is ever rejected.  Log messages are not modelled. *)
From Verif Require Export ModelCiscoGroup.
Local Open Scope string_scope.
Local Open Scope list_scope.
Local Open Scope Z_scope.

(** The slot of the second of two different numbers in the table of a CPython set, when the
    first is in slot [taken] (Objects/setobject.c: eight slots, i * 5 + 1 + perturb).  Numbers
    from 0 to 65535 need few rounds. *)
Fixpoint probe (fuel : nat) (taken i perturb : Z) : Z :=
  match fuel with
  | O => i
  | S fuel => if i =? taken then let perturb := perturb / 32 in probe fuel taken ((i * 5 + 1 + perturb) mod 8) perturb else i
  end.
(** The members of set([a, b]) in the order in which it is walked. *)
Definition set_pair (a b : Z) : list Z :=
  if a =? b then [a]
  else
    let i := a mod 8 in
    if i <? probe 16 i (b mod 8) b then [a; b] else [b; a].

(** aruba.py:62-66 *)
Definition ar_numbers : list (string * Z) := [("icmp", 1); ("gre", 47); ("esp", 50)].
(** aruba.py:57-60 *)
Definition ar_actions : list (string * string) := [("accept", "permit"); ("deny", "deny")].
(** aruba.py:210-230 _GeneratePortTokens; [acc] is ret_ports *)
Fixpoint ar_services (acc : list string) (ps : list pval) (ports : list prange) : res (list string) :=
  match ps with
  | [] => Ok acc
  | PName s :: rest =>
      match assoc s ar_numbers with
      | Some n => Ok [dec n]
      | None => ar_services (acc ++ map (fun r => (lower s ++ " " ++ join " " (map dec (set_pair (fst r) (snd r))))%string) ports) rest ports
      end
  | PNum _ :: rest => if some ports then Raise (Exn "AttributeError") else ar_services acc rest ports
  end.
(** ipaddress num_addresses: int(broadcast_address) - int(network_address) + 1 *)
Definition num_addresses (n : net) : Z := broadcast n - naddr n + 1.
(** aruba.py:189-208 _GenerateNetworkOrHostTokens *)
Definition ar_member (n : net) : string :=
  if num_addresses n =? 1 then ("host " ++ addr_text (nver n) (naddr n))%string
  else match nver n with
       | V6 => ("network " ++ addr_text V6 (naddr n) ++ "/" ++ dec (nlen n))%string
       | V4 => ("network " ++ addr_text V4 (naddr n) ++ " " ++ addr_text V4 (netmask n))%string
       end.
(** aruba.py:163-187 _GenerateNetdest *)
Definition ar_netdest (v : ver) (id : string) (addrs : list net) : string :=
  join lf (("netdestination" ++ match v with V6 => "6" | V4 => "" end ++ " " ++ id)%string
           :: map (fun n => ("  " ++ ar_member n)%string) addrs ++ [("!" ++ lf)%string]).
(** aruba.py:97-117 and 119-134: one end of a term; None where the term is empty for the family.
    The word of the end, and its netdestination. *)
Definition ar_end (v : ver) (user suffix : string) (t : term) (addrs : list net) : option (string * list string) :=
  if str_in user (t_option t) then Some ("user", [])
  else match addrs with
       | [] => Some ("any", [])
       | _ => match address_of_version addrs (Some v) with
              | [] => None
              | own => let id := (lower (t_name t) ++ suffix)%string in Some (("alias " ++ id)%string, [ar_netdest v id own])
              end
       end.
(** aruba.py:75-161 Term.__str__: the netdestinations and the text.  Verbatim lines keep the
    netdestinations empty. *)
Definition nonempty_lines (l : list string) : string := join lf (filter (fun s => negb (is_empty s)) l).
(** aruba.py:75-161 *)
Definition ar_term (v : ver) (verbose : bool) (t : term) (ps : list pval) : res (list string * string) :=
  if some (t_verbatim t) then
    Ok ([], nonempty_lines (flat_map (fun w => if String.eqb (fst w) "aruba" && negb (is_empty (snd w)) then [("  " ++ snd w)%string] else []) (t_verbatim t)))
  else
    let comments := t_comment t ++ match t_owner t with Some o => if is_empty o then [] else [("Owner: " ++ o)%string] | None => [] end in
    let notes := if verbose then map (fun line => ("  # " ++ line)%string) (wrap_words comments 70 lf) else [] in
    match ar_end v "source-is-user" "_src" t (t_source_address t) with
    | None => Ok ([], "")
    | Some (s, ns) =>
        match ar_end v "destination-is-user" "_dst" t (t_destination_address t) with
        | None => Ok ([], "")
        | Some (d, nd) =>
            let! services := if some ps then ar_services [] ps (t_destination_port t) else Ok ["any"] in
            let! lines := mapM (fun service =>
                match t_action t with
                | [] => Raise (Exn "IndexError")
                | a :: _ =>
                    Ok (join " " (filter (fun s => negb (is_empty s))
                          ([" "; (if str_in "negate" (t_option t) then "no" else ""); match v with V6 => "ipv6" | V4 => "" end; s; d; service;
                            match assoc a ar_actions with Some w => w | None => "" end])))
                end) services in
            Ok (ns ++ nd, nonempty_lines (notes ++ lines))
        end
    end.
(** aruba.py:280-312: the header's options for Aruba, None where it has no such target; headers
    of other platforms are not left out *)
Definition ar_family (options : list string) : ver := if str_in "inet6" options then V6 else V4.
(** aruba.py:280-335, one header *)
Definition ar_filter (today : Z) (f : option (list string) * list term) : res (list string) :=
  let options := match fst f with Some o => o | None => [] end in
  let name := match options with [] => "None" | n :: _ => n end in
  let verbose := negb (str_in "noverbose" options) in
  let options := remove_first "noverbose" options in
  let! l := mapM (fun t => let! ps := term_protocols ["ipip"] (t_protocol t) in ar_term (ar_family options) verbose t ps)
              (filter (fun t => negb (expired today t)) (snd f)) in
  Ok (concat (map fst l) ++ [("ip access-list session " ++ name)%string] ++ map snd l ++ ["!"]).
(** aruba.py:314-335 __str__.  Simplified: the protocols of all terms are translated before any
    term is written, which changes only which of two errors is raised. *)
Definition ar_text (today : Z) (fs : list (option (list string) * list term)) : res string :=
  let! l := mapM (ar_filter today) fs in
  Ok (join lf (add_repository_tags "# " true true true false ++ concat l ++ [""])).
