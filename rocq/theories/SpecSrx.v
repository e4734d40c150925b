(** Reading of SRX configurations, as the firewall does: address books, applications and the policies
    between two zones. Independent of the code that writes them. *)
From Verif Require Export ModelSrx SpecJuniper.
Local Open Scope string_scope.
Local Open Scope list_scope.
Local Open Scope Z_scope.

(** What stands in the blocks with these words. *)
Definition within (ws : list string) (l : list stmt) : list stmt :=
  flat_map (fun s => match s with Block w body => if list_eq_dec string_dec w ws then body else [] | Leaf _ => [] end) l.

(** ** Names of addresses *)

(** The address book for a zone: its own entries and those of the global book. *)
Definition book_of (conf : list stmt) (zone : string) : list stmt :=
  let security := within ["security"] conf in
  within ["global"] (within ["replace:"; "address-book"] security)
  ++ within ["replace:"; "address-book"] (within ["security-zone"; zone] (within ["zones"] security)).
Definition address_says (book : list stmt) (name : string) (x : ipaddr) : Prop :=
  exists prefix, In (Leaf ["address"; name; prefix]) book /\ prefix_says (fst x) prefix (snd x).
(** An address, or a set of addresses, of this name holds the address. *)
Definition name_says (book : list stmt) (name : string) (x : ipaddr) : Prop :=
  address_says book name x \/
  exists members a, In (Block ["address-set"; name] members) book /\ In (Leaf ["address"; a]) members /\ address_says book a x.

(** ** Applications *)

Definition app_condition (p : packet) (key w : string) : Prop :=
  if String.eqb key "protocol" then protocol_word w p
  else if String.eqb key "source-port" then in_text_range w (p_sport p)
  else if String.eqb key "destination-port" then in_text_range w (p_dport p)
  else if String.eqb key "icmp-type" then exists n, numeral_value w = Some n /\ In (p_icmp_type p, n) icmp_type4
  else if String.eqb key "icmp6-type" then exists n, numeral_value w = Some n /\ In (p_icmp_type p, n) icmp_type6
  else key = "inactivity-timeout".
Fixpoint app_conditions (p : packet) (ws : list string) : Prop :=
  match ws with
  | [] => True
  | k :: w :: r => app_condition p k w /\ app_conditions p r
  | _ => False
  end.
(** One of the terms of the application holds; of two terms with one name the second takes the place of
    the first. *)
Definition term_named (n : string) (s : stmt) : Prop := exists ws, s = Leaf ("term" :: n :: ws).
Definition application_says (apps : list stmt) (name : string) (p : packet) : Prop :=
  exists body before n ws after, In (Block ["application"; name] body) apps /\ body = before ++ Leaf ("term" :: n :: ws) :: after /\
    (forall s, In s after -> ~ term_named n s) /\ app_conditions p ws.
(** An application or a set of applications. *)
Definition app_says (conf : list stmt) (name : string) (p : packet) : Prop :=
  let apps := within ["replace:"; "applications"] conf in
  name = "any" \/ application_says apps name p \/
  exists members a, In (Block ["application-set"; name] members) apps /\ In (Leaf ["application"; a]) members /\ application_says apps a p.

(** ** Policies *)

Definition match_says (conf : list stmt) (from to : string) (p : packet) (s : stmt) : Prop :=
  match s with
  | Leaf (k :: ws) =>
      if String.eqb k "source-address" then one_of (fun w => w = "any" \/ name_says (book_of conf from) w (p_src p)) ws
      else if String.eqb k "destination-address" then one_of (fun w => w = "any" \/ name_says (book_of conf to) w (p_dst p)) ws
      else if String.eqb k "application" then one_of (fun w => app_says conf w p) ws
      else if String.eqb k "dscp" then one_of (eq (p_dscp p)) ws
      else if String.eqb k "dscp-except" then none (eq (p_dscp p)) ws
      else if String.eqb k "from-zone" then one_of (eq (p_src_zone p)) ws
      else if String.eqb k "to-zone" then one_of (eq (p_dst_zone p)) ws
      else False
  | _ => False
  end.
Definition srx_outcomes : list string := ["permit"; "deny"; "reject"].
(** The policy applies to the packet and gives the outcome. *)
Definition policy_says (conf : list stmt) (from to : string) (p : packet) (s : stmt) (outcome : string) : Prop :=
  match s with
  | Block [w; _] body =>
      w = "policy" /\ (forall m, In m (within ["match"] body) -> match_says conf from to p m) /\
      In outcome srx_outcomes /\ In (Leaf [outcome]) (within ["then"] body)
  | _ => False
  end.
(** The policies between two zones, in their order; the word all for both stands for the global ones. *)
Definition context (conf : list stmt) (from to : string) : list stmt :=
  within (if String.eqb from "all" && String.eqb to "all" then ["global"] else ["from-zone"; from; "to-zone"; to])
    (within ["replace:"; "policies"] (within ["security"] conf)).
Definition policy_names (l : list stmt) : list string :=
  flat_map (fun s => match s with Block [w; n] _ => if String.eqb w "policy" then [n] else [] | _ => [] end) l.
(** No two of them have one name, and the first one that applies gives the outcome. *)
Definition srx_decides (conf : list stmt) (from to : string) (p : packet) (outcome : string) : Prop :=
  NoDup (policy_names (context conf from to)) /\ first_says (policy_says conf from to p) (context conf from to) outcome.

(** ** What the policy file asks for *)

(** The zones of a header, and the options after them. *)
Definition srx_asks (h : srx_header) (from to : string) (extra : list string) : Prop :=
  sh_options h = Some ("from-zone" :: from :: "to-zone" :: to :: extra).
(** The terms of all headers for two zones, in their order. *)
Definition asks_for (from to : string) (f : srx_header * list term) : bool :=
  match sh_options (fst f) with
  | Some (_ :: a :: _ :: b :: _) => String.eqb a from && String.eqb b to
  | _ => false
  end.
Definition terms_between (fs : list (srx_header * list term)) (from to : string) : list term :=
  flat_map snd (filter (asks_for from to) fs).
Definition wants_srx_established (t : term) : Prop := In "established" (t_option t) \/ In "tcp-established" (t_option t).
(** The term says something to a stateful firewall: replies are let through without being asked for. *)
Definition srx_live (today : Z) (t : term) : Prop :=
  in_force today t /\ meant_for "srx" t /\ t_stateless_reply t = false /\ ~ wants_srx_established t.
Definition srx_verdict (action : string) : option string :=
  if String.eqb action "accept" then Some "permit" else if String.eqb action "deny" then Some "deny"
  else if String.eqb action "reject" then Some "reject" else None.
Definition srx_rule (today : Z) (p : packet) (t : term) (outcome : string) : Prop :=
  srx_live today t /\ term_matches t p /\ exists a, t_action t = [a] /\ srx_verdict a = Some outcome.

(** ** Policies that can be rendered exactly *)

Definition in_families (vs : list ver) (x : ipaddr) : Prop := In (fst x) vs /\ 0 <= snd x < 2 ^ width (fst x).
(** The names under which one side of a term is put into the book: those of its addresses, or one made
    from the name of the term. *)
Definition side_names (name suffix : string) (inc exc : list net) : list string :=
  match exc with [] => map nptoken inc | _ => [(upper name ++ suffix)%string] end.
(** Each of these names stands for the same addresses here as in [D]. *)
Definition side_settled (vs : list ver) (D : string -> ipaddr -> Prop) (name suffix : string) (inc exc : list net) : Prop :=
  match exc with
  | [] => forall n x, In n (map nptoken inc) -> in_families vs x -> (D n x <-> exists m, In m inc /\ nptoken m = n /\ covers m x)
  | _ => forall x, in_families vs x -> (D (upper name ++ suffix)%string x <-> side_matches inc exc x)
  end.
Definition srx_side_ok (vs : list ver) (inc exc : list net) : Prop :=
  valid_list inc /\ valid_list exc /\
  (* a list with only exclusions is a list of IPv4 addresses; something must be left *)
  (exc <> [] -> (inc = [] -> vs = [V4]) /\ exists x, in_families vs x /\ side_matches inc exc x).
Definition proper_name (s : string) : Prop := plain_word s /\ s <> "any".
(** An IPv6 address takes the room of four IPv4 addresses. *)
Definition side_weight (vs : list ver) (l : list net) : Z :=
  fold_right (fun n w => (if existsb (ver_eqb (nver n)) vs then match nver n with V4 => 1 | V6 => 4 end else 0) + w) 0 l.

Record srx_term_ok (vs : list ver) (t : term) : Prop := {
  sx_action : exists a, t_action t = [a] /\ In a ["accept"; "deny"; "reject"];
  sx_name : plain_word (t_name t);
  sx_options : t_option t = [];
  sx_src : srx_side_ok vs (t_source_address t) (t_source_address_exclude t);
  sx_dst : srx_side_ok vs (t_destination_address t) (t_destination_address_exclude t);
  sx_names : forall n, In n (side_names (t_name t) "_SRC_EXCLUDE" (t_source_address t) (t_source_address_exclude t) ++
                            side_names (t_name t) "_DST_EXCLUDE" (t_destination_address t) (t_destination_address_exclude t)) -> proper_name n;
  sx_weight : side_weight vs (t_source_address t) + side_weight vs (t_destination_address t) <= 1023;
  sx_protocol : forall q, In q (t_protocol t) -> In q (map fst proto_map) /\ q <> "all";
  sx_ports : forall r, In r (t_source_port t ++ t_destination_port t) -> 0 <= fst r /\ 0 <= snd r;
  sx_types : List.length (t_icmp_type t) <> 8%nat;
  sx_type_ports : t_icmp_type t <> [] -> t_source_port t = [] /\ t_destination_port t = [];
  sx_words : plain_words (t_dscp_match t ++ t_dscp_except t ++ t_source_zone t ++ t_destination_zone t);
  sx_comments : quiet_comments (term_comments t);
  (* attributes that are only warned about, and values that count as not given *)
  sx_warned : t_restrict_address_family t = None /\ t_source_tag t = [] /\ t_destination_tag t = [] /\ t_ttl t <> Some 0;
  sx_texts : t_source_interface t <> Some "" /\ t_destination_interface t <> Some "" }.

(** The address families that options of a header ask for. *)
Definition asks_families (extra : list string) (vs : list ver) : Prop :=
  (In "inet" extra /\ vs = [V4]) \/ (In "inet6" extra /\ vs = [V6]) \/ (~ In "inet" extra /\ ~ In "inet6" extra /\ vs = [V4; V6]).
(** A header for two zones whose addresses are of these families. *)
Record srx_header_ok (vs : list ver) (h : srx_header) (from to : string) (extra : list string) : Prop := {
  sr_zones : plain_word from /\ plain_word to;
  sr_family : asks_families extra vs;
  sr_express : ~ In "expresspath" extra;
  sr_comments : quiet_comments (sh_comment h);
  sr_groups : plain_words (sh_groups h ++ sh_groups_except h) }.

(** A name that some term in force puts into the book. *)
Definition used_name (today : Z) (fs : list (srx_header * list term)) (n : string) : Prop :=
  exists h terms t, In (h, terms) fs /\ sh_options h <> None /\ In t terms /\ srx_live today t /\
    In n (side_names (t_name t) "_SRC_EXCLUDE" (t_source_address t) (t_source_address_exclude t) ++
          side_names (t_name t) "_DST_EXCLUDE" (t_destination_address t) (t_destination_address_exclude t)).
(** The book is one for all zones. *)
Definition one_book (extra : list string) : Prop := ~ In "address-book-zone" extra.
(** A whole policy. [D zone name x]: the name stands for the address in the book of the zone. *)
Record srx_policy_ok (today : Z) (vs : list ver) (D : string -> string -> ipaddr -> Prop) (fs : list (srx_header * list term)) : Prop := {
  so_headers : forall h terms, In (h, terms) fs -> sh_options h <> None -> exists from to extra, srx_asks h from to extra /\ srx_header_ok vs h from to extra;
  so_terms : forall h terms t, In (h, terms) fs -> sh_options h <> None -> In t terms -> srx_live today t -> srx_term_ok vs t;
  so_settled : forall h terms from to extra t, In (h, terms) fs -> srx_asks h from to extra -> In t terms -> srx_live today t ->
    side_settled vs (D from) (t_name t) "_SRC_EXCLUDE" (t_source_address t) (t_source_address_exclude t) /\
    side_settled vs (D to) (t_name t) "_DST_EXCLUDE" (t_destination_address t) (t_destination_address_exclude t);
  so_one_book : forall h terms from to extra, In (h, terms) fs -> srx_asks h from to extra -> one_book extra ->
    forall z z' n x, D z n x <-> D z' n x;
  (* terms of two headers for the same zones have different names *)
  so_names : forall a f b f' c from to t t', fs = a ++ f :: b ++ f' :: c -> asks_for from to f = true -> asks_for from to f' = true ->
    In t (snd f) -> In t' (snd f') -> srx_live today t -> srx_live today t' -> t_name t <> t_name t';
  (* no name is another one followed by a number *)
  so_numbers : forall n m k, used_name today fs n -> used_name today fs m -> 0 <= k -> n <> (m ++ "_" ++ dec k)%string }.
