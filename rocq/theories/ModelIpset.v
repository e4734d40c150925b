(** Model of ipset.py: the address sets of terms and the address conditions of their rules.  The
    rest of a rule is written by iptables.py (ModelIptables.v). *)
From Verif Require Export ModelIptables ModelGen.
Local Open Scope string_scope.
Local Open Scope list_scope.
Local Open Scope Z_scope.

(** iptables.py:36-39 AF_MAP, backwards: the name of the family *)
Definition set_family (v : ver) : string := match v with V4 => "inet" | V6 => "inet6" end.
(** ipset.py:162-168 _GenerateSetName *)
Definition ipset_name (v : ver) (term_name direction : string) : string :=
  let suffix := match v with V4 => direction | V6 => append direction "-v6" end in
  let name := if 31 <? slen term_name + slen suffix + 1 then slice_to term_name (31 - slen suffix - 1) else term_name in
  append name (append "-" suffix).
(** ipset.py:93-118 _CalculateAddrList: the list that is returned, and the entry of addr_sets, if
    one is made *)
Definition set_side (v : ver) (name direction : string) (inc exc : list net) : res (list net * option (string * list net)) :=
  let inc := if some inc then inc else [all_ips v] in
  let mine := filter (fun n => ver_eqb (nver n) v) in
  let! l := (if some exc then address_list_exclude (mine inc) (mine exc) true else Ok (mine inc)) in
  if 1 <? Z.of_nat (List.length l) then Ok ([all_ips v], Some (ipset_name v name direction, l)) else Ok (l, None).
(** ipset.py:143-160 _GenerateAddressStatement, one side *)
Definition set_statement (v : ver) (flag direction : string) (entry : option (string * list net)) (a : net) : string :=
  if net_eqb a (all_ips v) then
    match entry with Some (n, _) => append "-m set --match-set " (append n (append " " direction)) | None => "" end
  else append flag (append " " (prefixlen_text a)).
(** ipset.py:84-91 _CalculateAddresses and iptables.py:208-280, the loops over addresses: the
    address conditions of the rules of a term, source and destination; a term that is left
    without addresses on a side has no rules (iptables.py:194-206) *)
Definition set_conditions (v : ver) (t : term) : res (list (string * string)) :=
  let! (srcs, src_set) := set_side v (t_name t) "src" (t_source_address t) (t_source_address_exclude t) in
  let! (dsts, dst_set) := set_side v (t_name t) "dst" (t_destination_address t) (t_destination_address_exclude t) in
  Ok (flat_map (fun s => map (fun d => (set_statement v "-s" "src" src_set s, set_statement v "-d" "dst" dst_set d)) dsts) srcs).
(** ipset.py:213-225, one direction *)
Definition set_lines (exists_option : bool) (v : ver) (entry : option (string * list net)) : list string :=
  match entry with
  | None => []
  | Some (n, l) =>
      let option := if exists_option then " -exist" else "" in
      let hashsize := 2 ^ bit_length (Z.of_nat (List.length l)) in
      append "create" (append option (append " " (append n (append " hash:net family " (append (set_family v)
        (append " hashsize " (append (dec hashsize) (append " maxelem " (dec hashsize)))))))))
      :: map (fun a => append "add" (append option (append " " (append n (append " " (prefixlen_text a)))))) l
  end.
(** ipset.py:197-226 _GenerateSetConfig: in descending order, src comes before dst *)
Definition set_config (exists_option : bool) (v : ver) (t : term) : res (list string) :=
  let! (_, src_set) := set_side v (t_name t) "src" (t_source_address t) (t_source_address_exclude t) in
  let! (_, dst_set) := set_side v (t_name t) "dst" (t_destination_address t) (t_destination_address_exclude t) in
  Ok (set_lines exists_option v src_set ++ set_lines exists_option v dst_set).
(** ipset.py:190-192, the loops over filters and terms *)
Fixpoint set_configs (exists_option : bool) (ts : list (ver * term)) : res (list string) :=
  match ts with
  | [] => Ok []
  | (v, t) :: rest =>
      let! a := set_config exists_option v t in
      let! b := set_configs exists_option rest in
      Ok (a ++ b)
  end.
(** ipset.py:184-193 Ipset.__str__, the lines before the rules.  [ts] are the terms of all
    filters whose addresses are calculated, each with the family of its filter; terms for which
    iptables.py:109-193 returns before that have no sets. *)
Definition set_section (exists_option : bool) (ts : list (ver * term)) : res (list string) :=
  let! ls := set_configs exists_option ts in
  Ok (["# begin:ipset-rules"] ++ ls ++ ["# end:ipset-rules"]).
