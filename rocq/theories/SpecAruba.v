(** How an Aruba controller reads netdestinations and session access lists, and the policies whose
    lists decide as their terms do.  Nothing here is taken from the code that writes them. *)
From Verif Require Export ModelAruba SpecCiscoRules.
Local Open Scope string_scope.
Local Open Scope list_scope.
Local Open Scope Z_scope.

(** ** Sections *)
Inductive aitem :=
| ADest (v : ver) (name : string) (members : list (list string))   (* a named set of addresses of a family *)
| AList (name : string) (rules : list (list string)).              (* an access list: its rules, word by word *)
Inductive amode :=
| AOut
| AInDest (v : ver) (name : string) (members : list (list string))
| AInList (name : string) (rules : list (list string)).
(** Nothing but blanks, or a comment. *)
Definition idle (ws : list string) : bool := match ws with [] => true | w :: _ => starts_with "#" w end.
(** A line that begins a section. *)
Definition section_head (ws : list string) : option amode :=
  match ws with
  | [w; name] => if String.eqb w "netdestination" then Some (AInDest V4 name [])
                 else if String.eqb w "netdestination6" then Some (AInDest V6 name []) else None
  | [a; b; c; name] => if String.eqb a "ip" && String.eqb b "access-list" && String.eqb c "session" then Some (AInList name []) else None
  | _ => None
  end.
Definition section_end (ws : list string) : bool := match ws with [w] => String.eqb w "!" | _ => false end.
(** Sections end with an exclamation mark.  Nothing else is a configuration. *)
Fixpoint read_aruba (m : amode) (lines : list (list string)) : option (list aitem) :=
  match lines with
  | [] => match m with AOut => Some [] | _ => None end
  | ws :: rest =>
      if idle ws then read_aruba m rest
      else
        match m with
        | AOut => match section_head ws with Some m => read_aruba m rest | None => None end
        | AInDest v n ms => if section_end ws then option_map (cons (ADest v n ms)) (read_aruba AOut rest) else read_aruba (AInDest v n (ms ++ [ws])) rest
        | AInList n rs => if section_end ws then option_map (cons (AList n rs)) (read_aruba AOut rest) else read_aruba (AInList n (rs ++ [ws])) rest
        end
  end.
Definition aruba_config (text : string) : option (list aitem) := read_aruba AOut (map split_ws (split_char newline text)).
Definition lists_of (items : list aitem) : list (string * list (list string)) :=
  flat_map (fun i => match i with AList n rs => [(n, rs)] | ADest _ _ _ => [] end) items.

(** ** Rules *)

(** address and mask: bits set in the mask count *)
Definition mask_says (q w : string) (x : Z) : Prop :=
  exists a m, quad_value q = Some a /\ quad_value w = Some m /\
    forall i, 0 <= i < 32 -> Z.testbit m i = true -> Z.testbit x i = Z.testbit a i.
Definition dest_member_says (v : ver) (ws : list string) (x : Z) : Prop :=
  match ws with
  | [k; a] => (k = "host" /\ ip_value v a = Some x) \/ (k = "network" /\ v = V6 /\ prefix_says V6 a x)
  | [k; a; m] => k = "network" /\ v = V4 /\ mask_says a m x
  | _ => False
  end.
(** The addresses with a name; a name that is defined again gains members. *)
Definition dest_says (items : list aitem) (v : ver) (name : string) (x : Z) : Prop :=
  exists ms ws, In (ADest v name ms) items /\ In ws ms /\ dest_member_says v ws x.
(** The source or the destination of a rule. *)
Inductive aend := EAny | EUser | EAlias (name : string).
Definition read_end (ws : list string) : option (aend * list string) :=
  match ws with
  | w :: r =>
      if String.eqb w "any" then Some (EAny, r)
      else if String.eqb w "user" then Some (EUser, r)
      else if String.eqb w "alias" then match r with name :: r' => Some (EAlias name, r') | [] => None end
      else None
  | [] => None
  end.
Definition end_says (items : list aitem) (v : ver) (e : aend) (x : Z) (is_user : Prop) : Prop :=
  match e with EAny => True | EUser => is_user | EAlias name => dest_says items v name x end.
(** any, a protocol number, or a protocol with one port or two: from the first to the second *)
Definition service_says (ws : list string) (p : packet) : Prop :=
  match ws with
  | [w] => w = "any" \/ exists n, numeral_value w = Some n /\ In (p_proto p, n) proto_map
  | [w; a] => p_proto p = w /\ numeral_value a = Some (p_dport p)
  | [w; a; b] => p_proto p = w /\ exists lo hi, numeral_value a = Some lo /\ numeral_value b = Some hi /\ lo <= p_dport p <= hi
  | _ => False
  end.
(** Rules for IPv6 begin with ipv6. *)
Definition family_part (v : ver) (ws : list string) : list string :=
  match v, ws with
  | V6, w :: r => if String.eqb w "ipv6" then r else []
  | _, _ => ws
  end.
(** The rule applies to a packet of the family and gives the outcome. *)
Definition ar_rule_says (items : list aitem) (v : ver) (p : packet) (ws : list string) (outcome : string) : Prop :=
  match read_end (family_part v ws) with
  | None => False
  | Some (s, ws) =>
      match read_end ws with
      | None => False
      | Some (d, ws) =>
          exists service, ws = service ++ [outcome] /\ In outcome ["permit"; "deny"] /\
            end_says items v s (snd (p_src p)) (p_option p "source-is-user") /\
            end_says items v d (snd (p_dst p)) (p_option p "destination-is-user") /\ service_says service p
      end
  end.
Definition ar_list_decides (items : list aitem) (v : ver) (rules : list (list string)) (p : packet) (outcome : string) : Prop :=
  first_says (ar_rule_says items v p) rules outcome.

(** ** Policies *)

Definition ar_family_of (options : list string) (v : ver) : Prop := v = V6 <-> In "inet6" options.
Record ar_term_ok (t : term) : Prop := {
  (* conditions that the lists cannot carry: no keyword is rejected, see the refutations *)
  at_only : only_cisco_conditions t;
  at_plain : t_icmp_type t = [] /\ t_icmp_code t = [] /\ t_dscp_match t = [] /\ t_source_port t = [] /\
             t_source_address_exclude t = [] /\ t_destination_address_exclude t = [] /\ t_restrict_address_family t = None;
  at_platform : meant_for "aruba" t;
  at_action : exists a r, t_action t = a :: r /\ In a ["accept"; "deny"];
  at_name : one_word (t_name t);
  at_src : valid_list (t_source_address t);
  at_dst : valid_list (t_destination_address t);
  (* only these options, and no addresses beside them *)
  at_option : forall o, In o (t_option t) -> (o = "source-is-user" /\ t_source_address t = []) \/ (o = "destination-is-user" /\ t_destination_address t = []);
  (* ICMP, GRE or ESP alone; other protocols with ports; no protocol, no ports *)
  at_protocol : (t_protocol t = [] /\ t_destination_port t = []) \/
                (exists q, In q ["icmp"; "gre"; "esp"] /\ t_protocol t = [q] /\ t_destination_port t = []) \/
                ((forall q, In q (t_protocol t) -> In q (map fst proto_map) /\ ~ In q ["icmp"; "gre"; "esp"]) /\ t_protocol t <> [] /\ t_destination_port t <> []);
  (* single ports, or ranges whose ends a set of numbers keeps in order *)
  at_ports : forall r, In r (t_destination_port t) -> 0 <= fst r /\ (fst r = snd r \/ fst r <= snd r /\ fst r mod 8 < snd r mod 8) }.
(** A header with a target for Aruba. *)
Definition ar_header (f : option (list string) * list term) (name : string) (rest : list string) : Prop :=
  fst f = Some (name :: rest) /\ one_word name.
(** Terms of a family whose names differ only in case have the same addresses. *)
Definition ar_policy_ok (today : Z) (fs : list (option (list string) * list term)) : Prop :=
  (forall f, In f fs -> exists name rest, ar_header f name rest /\ forall t, In t (snd f) -> in_force today t -> ar_term_ok t) /\
  (forall f f' o o' v t t', In f fs -> In f' fs -> fst f = Some o -> fst f' = Some o' -> ar_family_of o v -> ar_family_of o' v ->
     In t (snd f) -> In t' (snd f') -> in_force today t -> in_force today t' -> lower (t_name t) = lower (t_name t') ->
     t_source_address t = t_source_address t' /\ t_destination_address t = t_destination_address t').
Definition ar_traffic (v : ver) (p : packet) : Prop :=
  fst (p_src p) = v /\ 0 <= snd (p_src p) < 2 ^ width v /\ fst (p_dst p) = v /\ 0 <= snd (p_dst p) < 2 ^ width v /\
  p_platform p = "aruba".
(** The list of a header has its name and decides as its terms do. *)
Definition ar_as_policy (today : Z) (items : list aitem) (f : option (list string) * list term) (l : string * list (list string)) : Prop :=
  exists name rest, ar_header f name rest /\ fst l = name /\
    forall v p, ar_family_of (name :: rest) v -> ar_traffic v p -> forall outcome,
      ar_list_decides items v (snd l) p outcome <-> terms_decide (fun t => in_force today t /\ term_matches t p) (snd f) outcome.
