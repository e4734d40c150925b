(** Reading of an nftables configuration: words, sets, rules, chains, tables, and what a chain
    does with a packet. Independent of the code that writes it. Every statement is on a line
    of its own, as in the output of nft list ruleset. *)
From Verif Require Export ModelNft SpecText SpecGen SpecCisco.
Local Open Scope string_scope.
Local Open Scope list_scope.
Local Open Scope Z_scope.

(** ** Words *)

Definition grow (cur : option string) (c : ascii) : option string :=
  Some (append (match cur with Some w => w | None => "" end) (String c "")).
Definition word_of (cur : option string) : list string := match cur with Some w => [w] | None => [] end.
(** The words of a line. [set]: within braces, where a comma separates; [quoted]: within
    quotes; [cur]: the word being read. A quoted text becomes a word that starts with the
    quote. A number sign starts a comment. *)
Fixpoint nft_words (set quoted : bool) (cur : option string) (s : string) : option (list string) :=
  match s with
  | "" => if quoted then None else Some (word_of cur)
  | String c s' =>
      if quoted then
        if Ascii.eqb c dquote then option_map (app (word_of cur)) (nft_words set false None s')
        else nft_words set true (grow cur c) s'
      else if Ascii.eqb c "#" then Some (word_of cur)
      else if is_ws c then option_map (app (word_of cur)) (nft_words set false None s')
      else if Ascii.eqb c dquote then option_map (app (word_of cur)) (nft_words set true (Some (String dquote "")) s')
      else if Ascii.eqb c "{" then option_map (app (word_of cur ++ ["{"])) (nft_words true false None s')
      else if Ascii.eqb c "}" then option_map (app (word_of cur ++ ["}"])) (nft_words false false None s')
      else if Ascii.eqb c ";" then option_map (app (word_of cur ++ [";"])) (nft_words set false None s')
      else if set && Ascii.eqb c "," then option_map (app (word_of cur ++ [","])) (nft_words set false None s')
      else nft_words set false (grow cur c) s'
  end.

(** A value: one word, or the elements of an anonymous set. [open]: the elements read so far
    of a set that is not closed, and whether an element was read last. *)
Inductive item := Word (w : string) | Elements (l : list string).
Fixpoint nft_items (open : option (list string * bool)) (ws : list string) : option (list item) :=
  match ws with
  | [] => match open with None => Some [] | Some _ => None end
  | w :: r =>
      match open with
      | None =>
          if String.eqb w "{" then nft_items (Some ([], false)) r
          else if str_in w ["}"; ","; ";"] then None
          else option_map (cons (Word w)) (nft_items None r)
      | Some (l, false) => if str_in w ["{"; "}"; ","; ";"] then None else nft_items (Some (l ++ [w], true)) r
      | Some (l, true) =>
          if String.eqb w "," then nft_items (Some (l, false)) r
          else if String.eqb w "}" then option_map (cons (Elements l)) (nft_items None r)
          else None
      end
  end.
Definition values (i : item) : list string := match i with Word w => [w] | Elements l => l end.

(** ** Values *)

(** Names of ICMP types, as nft knows them; a number stands for itself. *)
Definition nft_icmp_names (v : ver) : list (string * Z) :=
  match v with
  | V4 => [("echo-reply", 0); ("destination-unreachable", 3); ("source-quench", 4); ("redirect", 5); ("echo-request", 8);
           ("router-advertisement", 9); ("router-solicitation", 10); ("time-exceeded", 11); ("parameter-problem", 12);
           ("timestamp-request", 13); ("timestamp-reply", 14); ("info-request", 15); ("info-reply", 16);
           ("address-mask-request", 17); ("address-mask-reply", 18)]
  | V6 => [("destination-unreachable", 1); ("packet-too-big", 2); ("time-exceeded", 3); ("parameter-problem", 4);
           ("echo-request", 128); ("echo-reply", 129); ("mld-listener-query", 130); ("mld-listener-report", 131);
           ("mld-listener-done", 132); ("nd-router-solicit", 133); ("nd-router-advert", 134); ("nd-neighbor-solicit", 135);
           ("nd-neighbor-advert", 136); ("nd-redirect", 137); ("router-renumbering", 138); ("ind-neighbor-solicit", 141);
           ("ind-neighbor-advert", 142); ("mld2-listener-report", 143)]
  end.
Definition nft_icmp_number (v : ver) (s : string) : option Z :=
  match assoc s (nft_icmp_names v) with Some n => Some n | None => numeral_value s end.
(** n or lo-hi *)
Definition nft_range (s : string) : option (Z * Z) :=
  match map numeral_value (split_char "-" s) with
  | [Some n] => if n <=? 65535 then Some (n, n) else None
  | [Some lo; Some hi] => if (lo <=? hi) && (hi <=? 65535) then Some (lo, hi) else None
  | _ => None
  end.
(** The protocols with this name, or number. *)
Definition nft_protocol (s : string) : option (packet -> Prop) :=
  match numeral_value s with
  | Some n => Some (fun p => In (p_proto p, n) proto_map)
  | None => if str_in s (map fst proto_map) then Some (fun p => p_proto p = s) else None
  end.
(** Connection tracking: a packet is new or belongs to a known connection. *)
Definition nft_state (s : string) : option (packet -> Prop) :=
  if String.eqb s "new" then Some (fun p => ~ p_option p "established")
  else if String.eqb s "established" then Some (fun p => p_option p "established")
  else if String.eqb s "related" then Some (fun _ => False)
  else None.
(** One of several conditions. *)
Definition one_of (l : list (packet -> Prop)) (p : packet) : Prop := exists c, In c l /\ c p.
Definition port_words : list string := ["tcp"; "udp"; "udplite"; "sctp"; "dccp"].
(** The texts an interface name can have here: no wildcard, no quoted text. *)
Definition name_char (c : ascii) : bool :=
  let k := nat_of_ascii c in
  ((48 <=? k) && (k <=? 57) || (65 <=? k) && (k <=? 90) || (97 <=? k) && (k <=? 122))%nat
  || Ascii.eqb c "_" || Ascii.eqb c "." || Ascii.eqb c "-" || Ascii.eqb c "/".

(** ** Rules *)

(** A match: two words and a value. *)
Definition nft_match (a b : string) (x : item) : option (packet -> Prop) :=
  let side v (f : packet -> ipaddr) := Some (fun p => fst (f p) = v /\ exists s, In s (values x) /\ prefix_says v s (snd (f p))) in
  if String.eqb a "ip" && String.eqb b "saddr" then side V4 p_src
  else if String.eqb a "ip" && String.eqb b "daddr" then side V4 p_dst
  else if String.eqb a "ip6" && String.eqb b "saddr" then side V6 p_src
  else if String.eqb a "ip6" && String.eqb b "daddr" then side V6 p_dst
  else if String.eqb a "ip" && String.eqb b "protocol" then
    option_map (fun l p => fst (p_src p) = V4 /\ one_of l p) (all_some (map nft_protocol (values x)))
  else if String.eqb a "meta" && String.eqb b "l4proto" then option_map one_of (all_some (map nft_protocol (values x)))
  else if str_in a port_words && String.eqb b "sport" then
    option_map (fun l p => p_proto p = a /\ in_ports l (p_sport p)) (all_some (map nft_range (values x)))
  else if str_in a port_words && String.eqb b "dport" then
    option_map (fun l p => p_proto p = a /\ in_ports l (p_dport p)) (all_some (map nft_range (values x)))
  else if String.eqb a "icmp" && String.eqb b "type" then
    option_map (fun l p => p_proto p = "icmp" /\ exists n, In n l /\ type_says V4 (Some n) p) (all_some (map (nft_icmp_number V4) (values x)))
  else if String.eqb a "icmpv6" && String.eqb b "type" then
    option_map (fun l p => p_proto p = "icmpv6" /\ exists n, In n l /\ type_says V6 (Some n) p) (all_some (map (nft_icmp_number V6) (values x)))
  else if String.eqb a "ct" && String.eqb b "state" then
    option_map one_of (all_some (map nft_state (flat_map (split_char ",") (values x))))
  else None.
(** A rule: its matches, and where it sends a packet that meets them. *)
Inductive target := Verdict (v : string) | Jump (chain : string).
Record nrule := mkNrule { nr_conditions : list (packet -> Prop); nr_target : option target }.
Definition nft_also (c : packet -> Prop) (o : option nrule) : option nrule :=
  option_map (fun r => mkNrule (c :: nr_conditions r) (nr_target r)) o.
Definition is_quoted (s : string) : bool := starts_with (String dquote "") s.
(** After the verdict there can be a comment, of at most 127 characters. *)
Definition nft_tail (l : list item) : bool :=
  match l with
  | [] => true
  | [Word k; Word c] => String.eqb k "comment" && is_quoted c && (slen c <=? 128)
  | _ => false
  end.
Definition nft_verdicts : list string := ["accept"; "drop"; "reject"].
Fixpoint nft_rule (l : list item) : option nrule :=
  match l with
  | [] => Some (mkNrule [] None)
  | Word a :: r =>
      if str_in a nft_verdicts then if nft_tail r then Some (mkNrule [] (Some (Verdict a))) else None
      else if String.eqb a "counter" then nft_rule r
      else match r with
           | Word b :: r =>
               if String.eqb a "jump" then if nft_tail r then Some (mkNrule [] (Some (Jump b))) else None
               else if String.eqb a "iifname" then if forall_char name_char b then nft_also (fun p => p_src_if p = b) (nft_rule r) else None
               else if String.eqb a "oifname" then if forall_char name_char b then nft_also (fun p => p_dst_if p = b) (nft_rule r) else None
               else match r with
                    | x :: r =>
                        if String.eqb a "log" && String.eqb b "prefix" then
                          match x with Word q => if is_quoted q then nft_rule r else None | Elements _ => None end
                        else match nft_match a b x with Some c => nft_also c (nft_rule r) | None => None end
                    | [] => None
                    end
           | _ => None
           end
  | Elements _ :: _ => None
  end.

(** ** Tables and chains *)

(** Names of chains and tables: letters, digits and some signs, a letter or underscore first,
    no word with a meaning of its own. *)
Definition nft_keywords : list string :=
  nft_verdicts ++ port_words ++ ["table"; "chain"; "type"; "hook"; "priority"; "policy"; "ip"; "ip6"; "inet"; "bridge"; "arp"; "netdev";
    "meta"; "ct"; "state"; "icmp"; "icmpv6"; "counter"; "log"; "prefix"; "comment"; "jump"; "goto"; "return"; "continue"; "queue"; "limit";
    "set"; "map"; "flow"; "protocol"; "l4proto"; "saddr"; "daddr"; "sport"; "dport"; "iifname"; "oifname"; "iif"; "oif"; "mark"; "rule";
    "element"; "ah"; "esp"; "comp"; "ether"; "vlan"; "rt"; "fib"; "hash"; "snat"; "dnat"; "masquerade"; "redirect"; "dup"; "fwd"; "tproxy";
    "include"; "define"; "add"; "delete"; "list"; "flush"; "rename"; "replace"; "create"; "insert"; "reset"; "monitor"; "describe"].
Definition nft_name (s : string) : bool :=
  match s with
  | "" => false
  | String c _ => forall_char name_char s && negb (is_digit c || Ascii.eqb c "-" || Ascii.eqb c "." || Ascii.eqb c "/")
                  && negb (str_in s nft_keywords)
  end.
Inductive nft_stmt := NSkip | NTable (family name : string) | NChain (name : string) | NClose
  | NBase (hook : string) (priority : Z) (policy : string) | NRule (r : nrule).
Definition nft_line (line : string) : option nft_stmt :=
  match nft_words false false None line with
  | None => None
  | Some [] => Some NSkip
  | Some [w] => if String.eqb w "}" then Some NClose else option_map NRule (match nft_items None [w] with Some l => nft_rule l | None => None end)
  | Some ws =>
      match ws with
      | [k; f; n; b] =>
          if String.eqb k "table" && String.eqb b "{" then
            if str_in f ["ip"; "ip6"; "inet"; "bridge"] && nft_name n then Some (NTable f n) else None
          else option_map NRule (match nft_items None ws with Some l => nft_rule l | None => None end)
      | [k; n; b] =>
          if String.eqb k "chain" && String.eqb b "{" then if nft_name n then Some (NChain n) else None
          else option_map NRule (match nft_items None ws with Some l => nft_rule l | None => None end)
      | [k1; k2; k3; h; k4; p; s1; k5; a; s2] =>
          if list_str_eqb [k1; k2; k3; k4; s1; k5; s2] ["type"; "filter"; "hook"; "priority"; ";"; "policy"; ";"] then
            match numeral_value p with
            | Some n => if str_in h ["input"; "output"; "forward"] && str_in a ["accept"; "drop"] then Some (NBase h n a) else None
            | None => None
            end
          else option_map NRule (match nft_items None ws with Some l => nft_rule l | None => None end)
      | _ => option_map NRule (match nft_items None ws with Some l => nft_rule l | None => None end)
      end
  end.
(** Where a rule is: family and name of the table, name of the chain. What a chain contains,
    in the order of the text; a chain that is opened again goes on. *)
Definition place : Type := (string * string * string)%type.
Inductive content := Made | Base (hook : string) (priority : Z) (policy : string) | Rule (r : nrule).
Fixpoint nft_contents (table : option (string * string)) (chain : option string) (ls : list nft_stmt) : option (list (place * content)) :=
  match ls with
  | [] => match table with None => Some [] | Some _ => None end
  | NSkip :: r => nft_contents table chain r
  | x :: r =>
      match table, chain, x with
      | None, None, NTable f n => nft_contents (Some (f, n)) None r
      | Some (f, n), None, NChain c => option_map (cons (f, n, c, Made)) (nft_contents table (Some c) r)
      | Some _, None, NClose => nft_contents None None r
      | Some (f, n), Some c, NBase h pr a => option_map (cons (f, n, c, Base h pr a)) (nft_contents table chain r)
      | Some (f, n), Some c, NRule x => option_map (cons (f, n, c, Rule x)) (nft_contents table chain r)
      | Some _, Some _, NClose => nft_contents table None r
      | _, _, _ => None
      end
  end.
Definition read_nft (text : string) : option (list (place * content)) :=
  match all_some (map nft_line (split_char newline text)) with Some ls => nft_contents None None ls | None => None end.
Definition place_eqb (a b : place) : bool :=
  String.eqb (fst (fst a)) (fst (fst b)) && String.eqb (snd (fst a)) (snd (fst b)) && String.eqb (snd a) (snd b).
Definition contents_at (at_ : place) (cs : list (place * content)) : list content :=
  flat_map (fun x => if place_eqb (fst x) at_ then [snd x] else []) cs.
Definition nrules_at (at_ : place) (cs : list (place * content)) : list nrule :=
  flat_map (fun x => match x with Rule r => [r] | _ => [] end) (contents_at at_ cs).
(** Chains that rules call exist in the same table. *)
Definition jumps_exist (cs : list (place * content)) : Prop :=
  forall f n c r t, In (f, n, c, Rule r) cs -> nr_target r = Some (Jump t) -> In (f, n, t, Made) cs.
(** Every chain is written once. *)
Definition chains_once (cs : list (place * content)) : Prop :=
  NoDup (flat_map (fun x => match snd x with Made => [fst x] | _ => [] end) cs).
Definition nmeets (r : nrule) (p : packet) : Prop := Forall (fun c : packet -> Prop => c p) (nr_conditions r).
(** The verdict of a chain, if one of its rules gives one; a rule that calls a chain gives
    what that chain gives. *)
Fixpoint nchain_gives (depth : nat) (cs : list (place * content)) (at_ : place) (p : packet) (outcome : string) : Prop :=
  match depth with
  | O => False
  | S d =>
      first_says (fun r o => nmeets r p /\ match nr_target r with
                                           | Some (Verdict v) => o = v
                                           | Some (Jump c) => nchain_gives d cs (fst at_, c) p o
                                           | None => False
                                           end)
        (nrules_at at_ cs) outcome
  end.
Definition nft_decides (cs : list (place * content)) (at_ : place) (p : packet) (outcome : string) : Prop :=
  nchain_gives (S (List.length cs)) cs at_ p outcome.

(** ** The terms that can be expressed *)

Definition only_nft_conditions (t : term) : Prop :=
  t_address t = [] /\ t_address_exclude t = [] /\ t_port t = [] /\ t_protocol_except t = [] /\
  t_source_prefix t = [] /\ t_source_prefix_except t = [] /\ t_destination_prefix t = [] /\ t_destination_prefix_except t = [] /\
  t_source_tag t = [] /\ t_destination_tag t = [] /\ t_precedence t = [] /\ t_forwarding_class t = [] /\
  t_forwarding_class_except t = [] /\ t_fragment_offset t = None /\ t_packet_length t = None /\ t_hop_limit t = None /\ t_ttl t = None /\
  t_source_zone t = [] /\ t_destination_zone t = [] /\ t_ether_type t = [] /\ t_traffic_type t = [] /\ t_dscp_match t = [] /\
  t_dscp_except t = [] /\ t_icmp_code t = [] /\ t_restrict_address_family t = None.
(** Networks are networks; exclusions leave something. *)
Definition nft_side (inc exc : list net) : Prop :=
  valid_list inc /\ valid_list exc /\ (exc <> [] -> exists x, covered inc x /\ ~ covered exc x).
(** An option that asks for replies. *)
Definition reply_option (t : term) : Prop := In "established" (t_option t) \/ In "tcp-established" (t_option t).
(** The word for an action. *)
Definition nft_verdict (action : string) : string :=
  if String.eqb action "accept" then "accept" else if String.eqb action "deny" then "drop" else "reject".
Record nft_term_ok (fams : list ver) (t : term) : Prop := {
  nt_only : only_nft_conditions t;
  nt_name : nft_name (t_name t) = true;
  nt_action : exists a, t_action t = [a] /\ In a ["accept"; "deny"; "reject"];
  nt_reply : t_stateless_reply t = false;
  nt_src : nft_side (t_source_address t) (t_source_address_exclude t);
  nt_dst : nft_side (t_destination_address t) (t_destination_address_exclude t);
  nt_protocol : forall q, In q (t_protocol t) -> In q (map fst proto_map);
  (* the ICMP of the other family does not occur beside other protocols *)
  nt_icmp : (In V6 fams -> In "icmp" (t_protocol t) -> forall q, In q (t_protocol t) -> q = "icmp") /\
            (In V4 fams -> In "icmpv6" (t_protocol t) -> forall q, In q (t_protocol t) -> q = "icmpv6");
  (* ports come with protocols that have them; both sides, if there are several protocols *)
  nt_ports : forall r, In r (t_source_port t ++ t_destination_port t) ->
    0 <= fst r <= snd r /\ snd r <= 65535 /\ t_protocol t <> [] /\ (forall q, In q (t_protocol t) -> In q port_words) /\
    ((1 < List.length (t_protocol t))%nat -> t_source_port t <> [] /\ t_destination_port t <> []);
  nt_types : t_icmp_type t <> [] ->
    (t_protocol t = ["icmp"] /\ forall ty, In ty (t_icmp_type t) -> In ty (map fst icmp_type4)) \/
    (t_protocol t = ["icmpv6"] /\ forall ty, In ty (t_icmp_type t) -> In ty (map fst icmp_type6));
  (* with an interface there is one rule only *)
  nt_interface : (forall s, t_source_interface t = Some s \/ t_destination_interface t = Some s -> s <> "" /\ forall_char name_char s = true) /\
    (t_source_interface t <> None \/ t_destination_interface t <> None ->
       t_protocol t = [] \/ t_source_port t = [] /\ t_destination_port t = [] \/ List.length (t_protocol t) = 1%nat);
  nt_option : t_option t = [] }.

(** ** Whole policies *)

(** What a header asks for: families, hook and so on, as the code reads it; the chain of the
    header that is the n-th, counted from 0. *)
Definition header_families (i : nft_info) : list ver := families (ni_af i).
Definition header_table (i : nft_info) : string * string :=
  (match ni_override i with Some f => f | None => ni_af i end, ni_table i).
Definition header_chain (i : nft_info) (n : nat) : string := append (ni_base i) (dec (Z.of_nat n)).
(** The terms that matter: in force, for this platform, not about replies. *)
Definition nft_term_applies (today : Z) (t : term) : Prop := in_force today t /\ meant_for "nftables" t /\ ~ reply_option t.
(** The chains of a policy: the one of the header, and one for each term. *)
Fixpoint policy_places (n : nat) (fs : list (nft_header * list term)) : list place :=
  match fs with
  | [] => []
  | (h, terms) :: rest =>
      match process_header (nh_options h) with
      | Ok i => (header_table i, header_chain i n) :: map (fun t => (header_table i, t_name t)) terms ++ policy_places (S n) rest
      | Raise _ => []
      end
  end.
(** A policy that can be expressed: names can be read, no chain is written twice, comments of
    headers stay on their line, terms can be expressed. *)
Record nft_policy_ok (today : Z) (fs : list (nft_header * list term)) : Prop := {
  np_places : NoDup (policy_places 0 fs);
  np_names : forall n h terms i, nth_error fs n = Some (h, terms) -> process_header (nh_options h) = Ok i ->
    nft_name (ni_table i) = true /\ nft_name (header_chain i n) = true;
  np_comments : forall h terms c, In (h, terms) fs -> In c (nh_comment h) -> has_char newline c = false;
  np_terms : forall h terms i t, In (h, terms) fs -> process_header (nh_options h) = Ok i -> In t terms ->
    nft_term_applies today t -> nft_term_ok (header_families i) t }.
(** The line that ties a chain to a hook. *)
Definition header_base (i : nft_info) : list content :=
  if ni_regular i then []
  else match numeral_value (ni_priority i) with Some n => [Base (ni_hook i) n (ni_policy i)] | None => [] end.
(** Packets of a family of the header; the two names for replies agree, connection tracking
    says something of every packet. *)
Definition nft_traffic (fams : list ver) (p : packet) : Prop :=
  (exists v, In v fams /\ fst (p_src p) = v /\ fst (p_dst p) = v /\ 0 <= snd (p_src p) < 2 ^ width v /\ 0 <= snd (p_dst p) < 2 ^ width v /\
             p_proto p <> match v with V4 => "icmpv6" | V6 => "icmp" end) /\
  (p_option p "established" \/ ~ p_option p "established") /\ (p_option p "tcp-established" <-> p_option p "established") /\
  p_platform p = "nftables".
Definition nft_applies (today : Z) (p : packet) (t : term) (outcome : string) : Prop :=
  in_force today t /\ term_matches t p /\ exists a, t_action t = [a] /\ outcome = nft_verdict a.

(** ** Options of headers *)

(** The options that take a value, and how a list of options reads: plain words, and values. *)
Definition valued_options : list string := ["base-chain-name"; "table-name"; "address-family-override"].
Inductive settings : list string -> list string -> list (string * string) -> Prop :=
| settings_nil : settings [] [] []
| settings_word o opts ws vs : ~ In o valued_options -> settings opts ws vs -> settings (o :: opts) (o :: ws) vs
| settings_value o x opts ws vs : In o valued_options -> settings opts ws vs -> settings (o :: x :: opts) ws ((o, x) :: vs).
(** The last value given for an option. *)
Definition last_value (key default : string) (vs : list (string * string)) (x : string) : Prop :=
  (exists a b, vs = a ++ (key, x) :: b /\ ~ In key (map fst b)) \/ (~ In key (map fst vs) /\ x = default).
