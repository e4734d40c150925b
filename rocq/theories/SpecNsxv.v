(** How NSX-V reads a section, and what the policy file asks for.  Independent of the code that writes
    it: the text is read as XML by a small reader. *)
From Verif Require Export ModelNsxv SpecNsx.
From Verif Require Import SpecGce.
Local Open Scope string_scope.
Local Open Scope list_scope.
Local Open Scope Z_scope.

(** ** XML *)

(** Elements, with everything between the brackets of their start, and text. *)
Inductive xml := Elem (head : string) (kids : list xml) | Text (s : string).
(** The name of an element. *)
Definition tag_of (head : string) : string := before_char " " head.
Definition tag_is (x : xml) (tag : string) : Prop := match x with Elem h _ => tag_of h = tag | Text _ => False end.
Definition head_ok (h : string) : bool := negb (is_empty h) && negb (has_char "<" h) && negb (has_char ">" h) && negb (has_char "&" h) && negb (starts_with "/" h).
(** From the first [c] on. *)
Fixpoint from_char (c : ascii) (s : string) : string :=
  match s with String d r => if Ascii.eqb d c then s else from_char c r | EmptyString => "" end.
(** What follows [p]. *)
Fixpoint after_prefix (p s : string) : option string :=
  match p, s with
  | EmptyString, _ => Some s
  | String c p', String d s' => if Ascii.eqb c d then after_prefix p' s' else None
  | _, _ => None
  end.
(** The nodes up to the end, or up to the end of the element around them, and what is left.  References
    to entities are refused. *)
Fixpoint read_nodes (fuel : nat) (s : string) : option (list xml * string) :=
  match fuel with
  | O => None
  | S f =>
      match s with
      | EmptyString => Some ([], "")
      | String c r =>
          if Ascii.eqb c "<" then
            if starts_with "/" r then Some ([], s)
            else
              let h := before_char ">" r in
              if has_char ">" r && head_ok h then
                match read_nodes f (after_char ">" r) with
                | Some (kids, rest) =>
                    match after_prefix ("</" ++ tag_of h ++ ">") rest with
                    | Some rest => match read_nodes f rest with Some (more, rest) => Some (Elem h kids :: more, rest) | None => None end
                    | None => None
                    end
                | None => None
                end
              else None
          else
            let t := before_char "<" s in
            if has_char "&" t then None
            else match read_nodes f (from_char "<" s) with Some (more, rest) => Some (Text t :: more, rest) | None => None end
      end
  end.
(** Behind the comment at the start. *)
Fixpoint after_comment (s : string) : option string :=
  match after_prefix "-->" s with Some r => Some r | None => match s with String _ r => after_comment r | EmptyString => None end end.
(** A document: a comment, one element, and blanks. *)
Definition read_document (s : string) : option xml :=
  match after_prefix "<!--" s with
  | Some r =>
      match after_comment r with
      | Some r =>
          match read_nodes (S (String.length r)) r with
          | Some ([Elem h kids], "") => Some (Elem h kids)
          | Some ([Elem h kids; Text w], "") => if is_empty (strip w) then Some (Elem h kids) else None
          | _ => None
          end
      | None => None
      end
  | None => None
  end.

(** ** Rules *)

Definition kids_of (x : xml) : list xml := match x with Elem _ kids => kids | Text _ => [] end.
(** The children of that name. *)
Definition child (x : xml) (tag : string) (k : xml) : Prop := In k (kids_of x) /\ tag_is k tag.
Definition no_child (x : xml) (tag : string) : Prop := forall k, ~ child x tag k.
(** A child that holds just a text. *)
Definition holds (x : xml) (tag : string) (s : string) : Prop := exists k, child x tag k /\ kids_of k = [Text s].
(** An address or a network. *)
Definition value_says (x : ipaddr) (s : string) : Prop := if has_char "/" s then range_has x s else ip_value (fst x) s = Some (snd x).
Definition address_says (x : ipaddr) (a : xml) : Prop :=
  exists ty s, holds a "type" ty /\ holds a "value" s /\
    ((ty = "Ipv4Address" /\ fst x = V4) \/ (ty = "Ipv6Address" /\ fst x = V6)) /\ value_says x s.
(** The addresses of a side: any if there are none. *)
Definition side_says (tag : string) (x : ipaddr) (r : xml) : Prop :=
  no_child r (tag ++ "s") \/ exists g a, child r (tag ++ "s") g /\ child g tag a /\ address_says x a.
(** Ports with commas between them. *)
Definition port_list_says (s : string) (n : Z) : Prop := exists w, In w (split_char "," s) /\ in_text_range (lstrip w) n.
Definition xml_given (x : xml) (tag : string) (P : string -> Prop) : Prop := no_child x tag \/ exists s, holds x tag s /\ P s.
(** A service: the number of a protocol, and possibly ports or a type of ICMP. *)
Definition nv_service_says (p : packet) (e : xml) : Prop :=
  tag_is e "service" /\
  (exists s n, holds e "protocol" s /\ numeral_value s = Some n /\ In (p_proto p, n) proto_map) /\
  xml_given e "sourcePort" (fun s => port_list_says s (p_sport p)) /\
  xml_given e "destinationPort" (fun s => port_list_says s (p_dport p)) /\
  xml_given e "subProtocol" (fun s => exists n, numeral_value s = Some n /\
    In (p_icmp_type p, n) (if String.eqb (p_proto p) "icmp" then icmp_type4 else icmp_type6)).
(** No services mean any service. *)
Definition services_say (p : packet) (r : xml) : Prop :=
  no_child r "services" \/ exists g, child r "services" g /\ (kids_of g = [] \/ exists e, In e (kids_of g) /\ nv_service_says p e).
Definition nv_rule_says (p : packet) (r : xml) (outcome : string) : Prop :=
  tag_is r "rule" /\ holds r "action" outcome /\ side_says "source" (p_src p) r /\ side_says "destination" (p_dst p) r /\ services_say p r.
(** The security group a rule is applied to; None if it is applied everywhere. *)
Definition applied_says (r : xml) (group : option string) : Prop :=
  match group with
  | None => no_child r "appliedToList"
  | Some w => exists a b, child r "appliedToList" a /\ child a "appliedTo" b /\ holds b "type" "SecurityGroup" /\ holds b "value" w
  end.
(** The first rule that matches decides. *)
Definition nv_decides (x : xml) (p : packet) (outcome : string) : Prop :=
  tag_is x "section" /\ first_says (nv_rule_says p) (kids_of x) outcome.

(** ** What the policy file asks for *)

(** The one header for the platform, with the options NAME KIND .... *)
Definition nv_asks (fs : list (option (list string) * list term)) (name kind : string) (more : list string) (terms : list term) : Prop :=
  exists before after, fs = before ++ (Some (name :: kind :: more), terms) :: after /\ forall f, In f (before ++ after) -> fst f = None.
(** The start of the section: its number, if the first word is not the keyword of groups, and its name. *)
Definition section_head (name : string) (more : list string) : string :=
  let quoted s := String dquote (s ++ String dquote "")%string in
  let named := ("name=" ++ quoted name)%string in
  match more with
  | [] => ("section " ++ named)%string
  | w :: _ => if String.eqb w "securitygroup" then ("section " ++ named)%string else ("section id=" ++ quoted w ++ " " ++ named)%string
  end.
Definition nv_verdict (a : string) : option string :=
  if String.eqb a "accept" then Some "allow" else if String.eqb a "deny" then Some "deny"
  else if str_in a ["reject"; "reject-with-tcp-rst"] then Some "reject" else None.
(** As for NSX-T, terms for established connections are not looked at. *)
Definition nv_term_says (today : Z) (p : packet) (t : term) (outcome : string) : Prop :=
  in_force today t /\ meant_for "nsxv" t /\ not_established t /\ term_matches t p /\ exists a r, t_action t = a :: r /\ nv_verdict a = Some outcome.

(** ** Policies that can be rendered exactly *)

(** Text without markup. *)
Definition plain (s : string) : Prop := has_char "<" s = false /\ has_char ">" s = false /\ has_char "&" s = false.
(** Words of headers. *)
Definition header_word (s : string) : Prop := s <> "" /\ plain s /\ forall_char (fun c => negb (is_ws c)) s = true.
(** Addresses of a side: none at all, or at least one of the families of the filter is left. *)
Definition nv_side_ok (vs : list ver) (inc exc : list net) : Prop :=
  valid_list inc /\ valid_list exc /\
  ((inc = [] /\ exc = []) \/ (inc <> [] /\ exists x, In (fst x) vs /\ side_matches inc exc x)).
Record nv_term_ok (vs : list ver) (t : term) : Prop := {
  nw_src : nv_side_ok vs (t_source_address t) (t_source_address_exclude t);
  nw_dst : nv_side_ok vs (t_destination_address t) (t_destination_address_exclude t);
  nw_protocol : forall q, In q (t_protocol t) -> In q (map fst proto_map) /\ q <> "all";
  (* terms with the ICMP of another family are left out as a whole *)
  nw_icmp4 : vs = [V4] -> In "icmpv6" (t_protocol t) -> t_protocol t = ["icmpv6"];
  nw_icmp6 : vs = [V6] -> In "icmp" (t_protocol t) -> t_protocol t = ["icmp"];
  nw_icmp : vs = [V4; V6] -> In "icmpv6" (t_protocol t) -> ~ In "icmp" (t_protocol t);
  nw_ports : (t_source_port t <> [] \/ t_destination_port t <> []) -> t_protocol t <> [] /\ forall q, In q (t_protocol t) -> In q ["tcp"; "udp"];
  nw_types : t_icmp_type t <> [] -> t_protocol t <> [];
  (* number 0 *)
  nw_reply : ~ In "echo-reply" (t_icmp_type t);
  nw_range : forall r, In r (t_source_port t ++ t_destination_port t) -> 0 <= fst r /\ 0 <= snd r;
  nw_option : t_option t = [];
  nw_plain : plain (t_name t) /\ forall c, In c (t_comment t) -> plain c;
  (* only warned about, or not seen, by the check of supported keywords *)
  nw_warned : t_restrict_address_family t = None /\ t_source_tag t = [] /\ t_destination_tag t = [] /\ t_ttl t <> Some 0 /\
    t_source_interface t <> Some "" /\ t_destination_interface t <> Some "" }.
Definition nv_terms_ok (today : Z) (kind : string) (terms : list term) : Prop :=
  forall t, In t terms -> in_force today t -> meant_for "nsxv" t -> not_established t -> nv_term_ok (nsx_versions kind) t.
Record nv_traffic (kind : string) (p : packet) : Prop := {
  nt_family : fst (p_src p) = fst (p_dst p) /\ In (fst (p_src p)) (nsx_versions kind);
  nt_src : 0 <= snd (p_src p) < 2 ^ width (fst (p_src p));
  nt_dst : 0 <= snd (p_dst p) < 2 ^ width (fst (p_dst p));
  nt_icmp : p_proto p <> if ver_eqb (fst (p_src p)) V4 then "icmpv6" else "icmp";
  nt_platform : p_platform p = "nsxv" }.
