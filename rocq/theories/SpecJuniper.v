(** Reading of Junos configuration text, as a router does: words, statements that end in
    semicolons, blocks in braces, comments that are skipped. Independent of the code that
    writes it. *)
From Verif Require Export ModelJuniper SpecText SpecGen SpecCisco.
Local Open Scope string_scope.
Local Open Scope list_scope.
Local Open Scope Z_scope.

(** ** Words *)

Definition special (c : ascii) : bool :=
  Ascii.eqb c ";" || Ascii.eqb c "{" || Ascii.eqb c "}" || Ascii.eqb c "[" || Ascii.eqb c "]".
Definition flush (cur : string) : list string := if is_empty cur then [] else [cur].
(** [comment]: inside a comment; [cur]: the word being read *)
Fixpoint tokens (comment : bool) (cur s : string) : list string :=
  match s with
  | "" => flush cur
  | String c s' =>
      if comment then
        match s' with
        | String d s'' => if Ascii.eqb c "*" && Ascii.eqb d "/" then tokens false "" s'' else tokens true "" s'
        | "" => []
        end
      else
        match s' with
        | String d s'' =>
            if Ascii.eqb c "/" && Ascii.eqb d "*" then flush cur ++ tokens true "" s''
            else if is_ws c then flush cur ++ tokens false "" s'
            else if special c then flush cur ++ String c "" :: tokens false "" s'
            else tokens false (append cur (String c "")) s'
        | "" =>
            if is_ws c then flush cur
            else if special c then flush cur ++ [String c ""]
            else flush (append cur (String c ""))
        end
  end.

(** ** Statements *)

Inductive stmt := Leaf (words : list string) | Block (words : list string) (body : list stmt).
(** [stack]: the blocks that are open, each with its words and the statements before it *)
Fixpoint read (toks : list string) (stack : list (list string * list stmt)) (done : list stmt) (cur : list string)
  : option (list stmt) :=
  match toks with
  | [] => match stack, cur with [], [] => Some (rev done) | _, _ => None end
  | t :: r =>
      if String.eqb t ";" then read r stack (Leaf (rev cur) :: done) []
      else if String.eqb t "{" then read r ((rev cur, done) :: stack) [] []
      else if String.eqb t "}" then
        match stack, cur with
        | (w, d) :: st, [] => read r st (Block w (rev done) :: d) []
        | _, _ => None
        end
      else read r stack done (t :: cur)
  end.
Definition text_of (lines : list string) : string := fold_right (fun l s => append l (String newline s)) "" lines.
Definition statements (lines : list string) : option (list stmt) := read (tokens false "" (text_of lines)) [] [] [].

(** ** Conditions *)

(** One value, or several in brackets. *)
Definition values (ws : list string) : list string :=
  match ws with
  | w :: r => if String.eqb w "[" then removelast r else ws
  | [] => []
  end.
(** Longest match: the address lies in a listed prefix that is longer than any excepted
    prefix it lies in; an address in none is not matched. *)
Definition prefix_length (s : string) : option Z := numeral_value (after_char "/" s).
Definition longest_match (v : ver) (body : list stmt) (x : Z) : Prop :=
  exists a n, In (Leaf [a]) body /\ prefix_says v a x /\ prefix_length a = Some n /\
    forall e m, In (Leaf [e; "except"]) body -> prefix_says v e x -> prefix_length e = Some m -> m < n.
(** The same for lists of networks. *)
Definition longest (inc exc : list net) (x : ipaddr) : Prop :=
  exists i, In i inc /\ covers i x /\ forall e, In e exc -> covers e x -> nlen e < nlen i.
Definition protocol_word (s : string) (p : packet) : Prop :=
  match numeral_value s with
  | Some n => In (p_proto p, n) proto_map
  | None => p_proto p = (if String.eqb s "icmp6" then "icmpv6" else if String.eqb s "hop-by-hop" then "hopopt" else s)
  end.
Definition one_of (P : string -> Prop) (ws : list string) : Prop := exists w, In w (values ws) /\ P w.
Definition none (P : string -> Prop) (ws : list string) : Prop := forall w, In w (values ws) -> ~ P w.
(** Keywords with values, and what they ask of a packet. *)
Definition keyword (v : ver) (p : packet) (k : string) (ws : list string) : Prop :=
  if String.eqb k "port" then one_of (fun w => in_text_range w (p_sport p)) ws \/ one_of (fun w => in_text_range w (p_dport p)) ws
  else if String.eqb k "source-port" then one_of (fun w => in_text_range w (p_sport p)) ws
  else if String.eqb k "destination-port" then one_of (fun w => in_text_range w (p_dport p)) ws
  else if str_in k ["protocol"; "next-header"; "ip-protocol"] then one_of (fun w => protocol_word w p) ws
  else if str_in k ["protocol-except"; "next-header-except"; "ip-protocol-except"] then none (fun w => protocol_word w p) ws
  else if String.eqb k "icmp-type" then
    one_of (fun w => exists n, numeral_value w = Some n /\ In (p_icmp_type p, n) (icmp_types_of v)) ws
  else if String.eqb k "icmp-code" then one_of (fun w => numeral_value w = Some (p_icmp_code p)) ws
  else if String.eqb k "ether-type" then one_of (eq (p_ether p)) ws
  else if String.eqb k "traffic-type" then one_of (eq (p_traffic p)) ws
  else if String.eqb k "precedence" then one_of (eq (p_precedence p)) ws
  else if str_in k ["dscp"; "traffic-class"] then one_of (eq (p_dscp p)) ws
  else if str_in k ["dscp-except"; "traffic-class-except"] then none (eq (p_dscp p)) ws
  else if String.eqb k "forwarding-class" then one_of (eq (p_class p)) ws
  else if String.eqb k "forwarding-class-except" then none (eq (p_class p)) ws
  else if String.eqb k "ttl" then one_of (fun w => numeral_value w = Some (p_ttl p)) ws
  else if String.eqb k "hop-limit" then one_of (fun w => in_text_range w (p_hops p)) ws
  else if String.eqb k "packet-length" then one_of (fun w => in_text_range w (p_length p)) ws
  else if String.eqb k "fragment-offset" then one_of (fun w => in_text_range w (p_fragment p)) ws
  else if String.eqb k "tcp-flags" then
    (ws = [String dquote (append "rst" (String dquote ""))] /\ p_option p "rst") \/
    (ws = [String dquote (append "(ack|rst)" (String dquote ""))] /\ p_option p "established")
  else False.
(** A statement of a from clause holds for the packet. *)
Definition holds (v : ver) (p : packet) (s : stmt) : Prop :=
  match s with
  | Block [k] body =>
      if str_in k ["address"; "ip-address"] then longest_match v body (snd (p_src p)) \/ longest_match v body (snd (p_dst p))
      else if str_in k ["source-address"; "ip-source-address"] then longest_match v body (snd (p_src p))
      else if str_in k ["destination-address"; "ip-destination-address"] then longest_match v body (snd (p_dst p))
      else if String.eqb k "source-prefix-list" then exists n, In (Leaf [n]) body /\ p_src_prefix p n
      else if String.eqb k "destination-prefix-list" then exists n, In (Leaf [n]) body /\ p_dst_prefix p n
      else False
  | Leaf [k] =>
      if String.eqb k "tcp-established" then p_option p "established"
      else if String.eqb k "tcp-initial" then p_option p "initial"
      else p_option p k
  | Leaf (k :: ws) => keyword v p k ws
  | _ => False
  end.

(** ** Terms and filters *)

(** The from clauses of a term hold. *)
Definition from_holds (v : ver) (p : packet) (body : list stmt) : Prop :=
  forall conds s, In (Block ["from"] conds) body -> In s conds -> holds v p s.
(** A word of the then clause that decides. *)
Definition decision (ws : list string) (outcome : string) : Prop :=
  (ws = ["accept"] /\ outcome = "accept") \/ (ws = ["discard"] /\ outcome = "discard") \/
  (exists r, ws = "reject" :: r /\ outcome = "reject").
Definition then_says (body : list stmt) (outcome : string) : Prop :=
  exists ws, decision ws outcome /\
    (In (Leaf ("then" :: ws)) body \/ exists acts, In (Block ["then"] acts) body /\ In (Leaf ws) acts).
(** A term (not one marked inactive) applies to the packet and gives the outcome. *)
Definition term_says (v : ver) (p : packet) (s : stmt) (outcome : string) : Prop :=
  match s with
  | Block [w; _] body => w = "term" /\ from_holds v p body /\ then_says body outcome
  | _ => False
  end.
(** The filter of this family and name in a configuration. *)
Definition has_filter (conf : list stmt) (family name : string) (terms : list stmt) : Prop :=
  exists fw fam, In (Block ["firewall"] fw) conf /\ In (Block ["family"; family] fam) fw /\
    In (Block ["replace:"; "filter"; name] terms) fam.
Definition filter_decides (v : ver) (terms : list stmt) (p : packet) (outcome : string) : Prop :=
  first_says (term_says v p) terms outcome.

(** ** The terms a filter of this kind can express *)

(** A word that the reader takes as one. *)
Definition plain_char (c : ascii) : bool := negb (is_ws c || special c || Ascii.eqb c "*").
Definition plain_word (s : string) : Prop := s <> "" /\ forall_char plain_char s = true.
Definition plain_words (l : list string) : Prop := forall s, In s l -> plain_word s.
Definition plain_opt (o : option string) : Prop := forall s, o = Some s -> s <> "" -> plain_word s.

(** No listed prefix lies strictly inside an excepted one. *)
Definition exclusions_inside (inc exc : list net) : Prop :=
  forall i e x, In i inc -> In e exc -> nlen e < nlen i -> covers i x -> ~ covers e x.
Definition juniper_side (inc exc : list net) : Prop :=
  valid_list inc /\ valid_list exc /\ (inc = [] -> exc = []) /\ exclusions_inside inc exc.

Definition only_juniper_conditions (t : term) : Prop :=
  t_address_exclude t = [] /\ t_source_prefix_except t = [] /\ t_destination_prefix_except t = [] /\
  t_source_tag t = [] /\ t_destination_tag t = [] /\ t_source_zone t = [] /\ t_destination_zone t = [] /\
  t_source_interface t = None /\ t_destination_interface t = None /\ t_verbatim t = [] /\ given (t_filter_term t) = false.

(** The term has a condition besides its options and packet length. *)
Definition has_condition (t : term) : Prop :=
  t_protocol t <> [] \/ t_address t <> [] \/ t_source_address t <> [] \/ t_destination_address t <> [] \/
  t_port t <> [] \/ t_source_port t <> [] \/ t_destination_port t <> [].

(** Options that the generator turns into conditions of its own. *)
Definition rewritten_options : list string := ["sample"; "established"; "tcp-established"; "rst"; "initial"; "first-fragment"].
Definition juniper_option_ok (t : term) (o : string) : Prop :=
  o = "sample" \/
  (In o ["established"; "tcp-established"] /\ t_protocol t = ["tcp"]) \/
  o = "rst" \/ (o = "initial" /\ In "tcp" (t_protocol t)) \/ o = "first-fragment" \/
  (plain_word o /\ forall r, In r rewritten_options -> starts_with r o = false).

(** The families of filters. *)
Definition filter_family (f : string) : Prop := f = "inet" \/ f = "inet6" \/ f = "bridge".
Record juniper_term_ok (c : juniper_cfg) (t : term) : Prop := {
  jt_type : filter_family (jc_type c);
  jt_dsmo : jc_dsmo c = false;
  jt_only : only_juniper_conditions t;
  jt_name : plain_word (t_name t);
  jt_action : exists a, t_action t = [a] /\ In a ["accept"; "deny"; "reject"; "reject-with-tcp-rst"; "next"];
  jt_then : given (t_routing_instance t) = false /\ given (t_encapsulate t) = false /\ given (t_decapsulate t) = false /\
            t_next_ip t = [] /\ plain_opt (t_counter t);
  jt_addr : valid_list (t_address t);
  jt_src : juniper_side (t_source_address t) (t_source_address_exclude t);
  jt_dst : juniper_side (t_destination_address t) (t_destination_address_exclude t);
  jt_protocol : forall q, In q (t_protocol t ++ t_protocol_except t) -> In q (map fst proto_map) /\ q <> "all";
  jt_ports : forall r, In r (t_port t ++ t_source_port t ++ t_destination_port t) -> 0 <= fst r /\ 0 <= snd r;
  jt_option : forall o, In o (t_option t) -> juniper_option_ok t o;
  (* options, packet length, ICMP types and codes come with another condition *)
  jt_condition : (exists o, In o (t_option t) /\ o <> "sample") \/ given (t_packet_length t) = true \/ t_icmp_type t <> [] \/ t_icmp_code t <> [] ->
                 has_condition t;
  jt_codes : forall n, In n (t_icmp_code t) -> 0 <= n;
  (* a time to live only for IPv4, a hop limit only for IPv6 *)
  jt_ttl : forall n, t_ttl t = Some n -> 0 < n /\ jc_type c = "inet";
  jt_hops : given (t_hop_limit t) = true -> jc_type c = "inet6";
  jt_words : plain_words (t_forwarding_class t ++ t_forwarding_class_except t ++ t_source_prefix t ++ t_destination_prefix t ++
                          t_ether_type t ++ t_traffic_type t ++ t_precedence t ++ t_dscp_match t ++ t_dscp_except t);
  jt_values : plain_opt (t_fragment_offset t) /\ plain_opt (t_packet_length t) /\ plain_opt (t_hop_limit t) }.
(** No comment of the term closes the comment it is put in. *)
Definition quiet_comments (comments : list string) : Prop :=
  forall comment line, In comment comments -> In line (split_char newline comment) -> ~ contains line "*/".
Definition term_comments (t : term) : list string :=
  t_comment t ++ match t_owner t with Some o => [append "Owner: " o] | None => [] end.

(** A packet that a filter of this family sees; the two names for the same flag agree, and
    sampling is no condition. *)
Definition juniper_traffic (c : juniper_cfg) (p : packet) : Prop :=
  fst (p_src p) = j_ver c /\ 0 <= snd (p_src p) < 2 ^ width (j_ver c) /\
  fst (p_dst p) = j_ver c /\ 0 <= snd (p_dst p) < 2 ^ width (j_ver c) /\
  p_proto p <> match j_ver c with V4 => "icmpv6" | V6 => "icmp" end /\
  (p_option p "tcp-established" <-> p_option p "established") /\
  (p_option p "tcp-initial" <-> p_option p "initial") /\ p_option p "sample" /\
  p_platform p = "juniper" /\ p_family p = jc_type c.

(** The word for the outcome of an action that decides. *)
Definition juniper_verdict (action : string) : option string :=
  if String.eqb action "accept" then Some "accept"
  else if String.eqb action "deny" then Some "discard"
  else if String.eqb action "next" then None else Some "reject".

(** A term without the mark that switches it off. *)
Definition unmarked (t : term) : term := set_option (remove_first "inactive" (t_option t)) t.
(** The rule a term of the policy stands for: in force, not marked inactive, matching; the
    outcome of its action. *)
Definition juniper_rule (today : Z) (p : packet) (t : term) (outcome : string) : Prop :=
  in_force today t /\ ~ In "inactive" (t_option t) /\ stateless_matches t p /\
  exists a, t_action t = [a] /\ juniper_verdict a = Some outcome.
(** The term is not for another family. *)
Definition of_family (c : juniper_cfg) (t : term) : Prop := forall f, t_restrict_address_family t = Some f -> f = jc_type c.
(** What is asked of each term of a filter: nothing of expired terms and terms for another family. *)
Definition juniper_listed_ok (c : juniper_cfg) (today : Z) (t : term) : Prop :=
  in_force today t -> t_restrict_address_family t <> Some "" /\ (of_family c t -> juniper_term_ok c (unmarked t) /\ quiet_comments (term_comments t)).
