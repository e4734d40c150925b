(** Model of the lookups of tools/cgrep.py.  Not modelled: the command line and what is printed
    around the results. *)
From Verif Require Export ModelReader ModelText.
Local Open Scope string_scope.
Local Open Scope list_scope.

(** s.isalpha() and s.isdigit() on ASCII text *)
Definition all_alpha (s : string) : bool := nonempty s && forall_char is_alpha s.
(** s.isdigit() (cgrep.py:479) *)
Definition all_digit (s : string) : bool := nonempty s && forall_char is_digit s.

Section Lookups.
  Context (parse_ip : string -> option net) (services networks : table) (fuel : nat).

  (** cgrep.py:264-274: the loops; [contained] is the test for a pair, in the second group *)
  Definition each_within {A} (contained : A -> A -> bool) (first second : list A) : bool :=
    forallb (fun obj => existsb (contained obj) second) first.
  (** cgrep.py:232-274 check_encapsulated.  Services are texts, which have no version: the first
      comparison fails with AttributeError. *)
  Definition check_encapsulated (obj_type first_obj second_obj : string) : res bool :=
    if String.eqb obj_type "network" then
      let! first := get_net parse_ip fuel networks first_obj in
      let! second := get_net parse_ip fuel networks second_obj in
      Ok (each_within (fun o s => ver_eqb (nver o) (nver s) && subnet_of o s) first second)
    else if String.eqb obj_type "service" then
      let! first := get_service fuel services first_obj in
      let! second := get_service fuel services second_obj in
      match first, second with
      | [], _ => Ok true
      | _, [] => Ok false
      | _, _ => Raise (Exn "AttributeError")
      end
    else Raise (Exn "ValueError").

  (** cgrep.py:353-377 get_nets_and_highest_prefix *)
  Definition nets_and_highest (ip net_group : string) : res (Z * list string) :=
    match parse_ip ip with
    | None => Raise (Exn "ValueError")
    | Some q =>
        let! nets := get_net parse_ip fuel networks net_group in
        let hits := filter (fun n => ver_eqb (nver q) (nver n) && subnet_of q n) nets in
        Ok (fold_left (fun h n => if (h <? nlen n)%Z then nlen n else h) hits 0%Z, map prefixlen_text hits)
    end.
  (** cgrep.py:338-345: the entries for one definition *)
  Definition ip_entries (ip v : string) : res (list (string * (Z * list string))) :=
    let! nested := get_parents fuel networks v in
    let! found := nets_and_highest ip v in
    Ok (match nested with
        | [] => [(v, found)]
        | _ => map (fun n => (append n (append " -> " v), found)) nested
        end).
  (** cgrep.py:324-350 get_ip_parents *)
  Definition cgrep_parents (ip : string) : res (list (string * list string)) :=
    let! rval := address_parents fuel parse_ip networks ip in
    let! l := mapM (ip_entries ip) rval in
    Ok (map (fun r => (fst r, snd (snd r)))
          (py_sorted_rev (fun a b => (fst (snd a) <=? fst (snd b))%Z) (concat l))).
  (** cgrep.py:301-321 group_diff, of two addresses *)
  Definition group_diff (ip1 ip2 : string) : res (list string * list string * list string) :=
    let! r1 := cgrep_parents ip1 in
    let! r2 := cgrep_parents ip2 in
    let group1 := map fst r1 in
    let group2 := map fst r2 in
    Ok (sorted_set (filter (fun x => str_in x group2) group1),
        sorted_set (filter (fun x => negb (str_in x group2)) group1),
        sorted_set (filter (fun x => negb (str_in x group1)) group2)).
  (** cgrep.py:397-423 compare_tokens: the union, and what is called the difference.  The order
      in which a set is listed is not modelled. *)
  Definition compare_tokens (t1 t2 : string) : res (list net * list string) :=
    let! d1 := get_net parse_ip fuel networks t1 in
    let! d2 := get_net parse_ip fuel networks t2 in
    let union := dedup (d1 ++ d2) in
    let mem := fun el d => existsb (net_eqb el) d in
    Ok (union, flat_map (fun el => if mem el d1 && mem el d2 then [prefixlen_text el]
                                   else if mem el d1 then [prefixlen_text el]
                                   else if mem el d2 then [prefixlen_text el] else []) union).
  (** cgrep.py:426-444 compare_ip_token: every address replaces the result; None is the empty
      list *)
  Fixpoint compare_ip_token (token : string) (result : option string) (ips : list string) : res (option string) :=
    match ips with
    | [] => Ok result
    | ip :: rest =>
        let! rval := address_parents fuel parse_ip networks ip in
        compare_ip_token token
          (Some (append ip (append (if str_in token rval then " is in " else " is _not_ in ") token))) rest
    end.
  (** cgrep.py:465-483 get_services *)
  Definition cgrep_services (first second : string) : res (string * string * list string) :=
    let '(port, protocol) := if all_alpha first && all_digit second then (second, first) else (first, second) in
    let! l := get_port_parents fuel services port protocol in
    Ok (port, protocol, l).
End Lookups.
