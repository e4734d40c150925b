(** Specification vocabulary for Kubernetes network policies: which resources the API server
    accepts, how they decide, and what the policy asks for.  Nothing here is taken from the code
    that writes the resources. *)
From Verif Require Export ModelK8s SpecOpenConfig.
Local Open Scope string_scope.
Local Open Scope list_scope.
Local Open Scope Z_scope.

Inductive way := Ingress | Egress.
(** the end of the connection that a rule names *)
Definition peer_of (w : way) (p : packet) : ipaddr := match w with Ingress => p_src p | Egress => p_dst p end.
Definition type_word (w : way) : string := match w with Ingress => "Ingress" | Egress => "Egress" end.
Definition rules_key (w : way) : string := match w with Ingress => "ingress" | Egress => "egress" end.
Definition peers_key (w : way) : string := match w with Ingress => "from" | Egress => "to" end.

(** cidr, without except *)
Definition block_says (x : ipaddr) (j : json) : Prop :=
  (exists s, path ["ipBlock"; "cidr"] j = Some (JStr s) /\ range_has x s) /\
  if_given (path ["ipBlock"; "except"] j) (fun e => exists l, e = JList l /\ forall s, In (JStr s) l -> ~ range_has x s).
Definition transport : list (string * string) := [("tcp", "TCP"); ("udp", "UDP"); ("sctp", "SCTP")].
Definition port_says (p : packet) (j : json) : Prop :=
  (exists s, path ["protocol"] j = Some (JStr s) /\ In (p_proto p, s) transport) /\
  if_given (path ["port"] j) (fun n => exists lo, n = JNum lo /\
    match path ["endPort"] j with None => p_dport p = lo | Some m => exists hi, m = JNum hi /\ lo <= p_dport p <= hi end).
(** An empty list does not restrict. *)
Definition one_says (o : option json) (P : json -> Prop) : Prop := if_given o (fun j => exists l, j = JList l /\ (l = [] \/ exists e, In e l /\ P e)).
Definition rule_allows (w : way) (r : json) (p : packet) : Prop :=
  one_says (path ["ports"] r) (port_says p) /\ one_says (path [peers_key w] r) (block_says (peer_of w p)).
(** The resource is about the pods for this direction; here all pods are meant. *)
Definition applies (w : way) (item : json) : Prop :=
  path ["spec"; "podSelector"] item = Some (JDict []) /\ exists l, path ["spec"; "policyTypes"] item = Some (JList l) /\ In (JStr (type_word w)) l.
Definition item_allows (w : way) (item : json) (p : packet) : Prop :=
  exists rules r, path ["spec"; rules_key w] item = Some (JList rules) /\ In r rules /\ rule_allows w r p.
(** Without a resource for the direction everything is permitted, otherwise what one of them allows. *)
Definition k8_permits (w : way) (items : list json) (p : packet) : Prop :=
  (forall item, In item items -> ~ applies w item) \/ exists item, In item items /\ applies w item /\ item_allows w item p.

(** ** What the API server asks of a resource *)

Definition lower_alnum (c : ascii) : Prop := In c (list_ascii_of_string "abcdefghijklmnopqrstuvwxyz0123456789").
Definition dns_label (s : string) : Prop :=
  let cs := list_ascii_of_string s in
  (forall c, In c cs -> lower_alnum c \/ c = "-"%char) /\ lower_alnum (hd "-"%char cs) /\ lower_alnum (last cs "-"%char).
(** labels with dots between them *)
Definition dns_name (s : string) : Prop :=
  (String.length s <= 253)%nat /\ exists labels, labels <> [] /\ s = join "." labels /\ forall l, In l labels -> dns_label l.
Definition addressable (x : ipaddr) : Prop := 0 <= snd x < 2 ^ width (fst x).
(** The exceptions are strictly inside the block. *)
Definition block_accepted (j : json) : Prop :=
  exists s, path ["ipBlock"; "cidr"] j = Some (JStr s) /\
    if_given (path ["ipBlock"; "except"] j) (fun e => exists l, e = JList l /\ forall x, In x l -> exists u, x = JStr u /\
      (forall a, addressable a -> range_has a u -> range_has a s) /\ exists a, addressable a /\ range_has a s /\ ~ range_has a u).
Definition port_accepted (j : json) : Prop :=
  (exists n s, path ["protocol"] j = Some (JStr s) /\ In (n, s) transport) /\
  match path ["port"] j, path ["endPort"] j with
  | None, e => e = None
  | Some n, None => exists lo, n = JNum lo /\ 1 <= lo <= 65535
  | Some n, Some m => exists lo hi, n = JNum lo /\ m = JNum hi /\ 1 <= lo <= hi /\ hi <= 65535
  end.
Definition all_in (o : option json) (P : json -> Prop) : Prop := if_given o (fun j => exists l, j = JList l /\ forall e, In e l -> P e).
Definition name_of (item : json) (s : string) : Prop := path ["metadata"; "name"] item = Some (JStr s).
Definition accepted_by_api (item : json) : Prop :=
  path ["apiVersion"] item = Some (JStr "networking.k8s.io/v1") /\ path ["kind"] item = Some (JStr "NetworkPolicy") /\
  (exists s, name_of item s /\ dns_name s) /\
  forall w, all_in (path ["spec"; rules_key w] item) (fun r => all_in (path ["ports"] r) port_accepted /\ all_in (path [peers_key w] r) block_accepted).

(** ** What the policy asks for *)

(** The first term in force that matches decides. *)
Definition k8_policy_decides (today : Z) (terms : list term) (p : packet) (action : string) : Prop :=
  first_says (fun t a => in_force today t /\ term_matches t p /\ t_action t = [a]) terms action.
Definition header_way (options : list string) (w : way) : Prop :=
  match w with Egress => In "EGRESS" options | Ingress => ~ In "EGRESS" options end.
Definition near_side (w : way) (t : term) : list net * list net :=
  match w with Ingress => (t_source_address t, t_source_address_exclude t) | Egress => (t_destination_address t, t_destination_address_exclude t) end.
Definition far_exclude (w : way) (t : term) : list net :=
  match w with Ingress => t_destination_address_exclude t | Egress => t_source_address_exclude t end.
Definition counts (today : Z) (t : term) : Prop := in_force today t /\ meant_for "k8s" t.
(** After a term that denies there are only terms that deny. *)
Definition denies_last (today : Z) (terms : list term) : Prop :=
  forall l1 t l2 u, terms = l1 ++ t :: l2 -> In u l2 -> counts today t -> t_action t = ["deny"] -> counts today u -> t_action u = ["deny"].
Record k8_term_ok (w : way) (t : term) : Prop := {
  kt_action : exists a, t_action t = [a];
  kt_side : subtractable (fst (near_side w t)) (snd (near_side w t));
  (* not looked at *)
  kt_far : far_exclude w t = [];
  kt_reply : t_stateless_reply t = false;
  (* also numbers and the word for all protocols pass the generator *)
  kt_protocol : forall n, In n (t_protocol t) -> In n (map fst transport);
  (* the policy reader refuses ports without a protocol *)
  kt_ports : t_destination_port t <> [] -> t_protocol t <> [];
  (* only warned about, or not seen, by the check of supported keywords *)
  kt_warned : t_restrict_address_family t = None /\ t_source_tag t = [] /\ t_destination_tag t = [] /\ t_ttl t <> Some 0;
  (* never empty texts in a policy file *)
  kt_texts : t_source_interface t <> Some "" /\ t_destination_interface t <> Some "" }.
Record k8_traffic (w : way) (p : packet) : Prop := {
  kq_peer : addressable (peer_of w p);
  kq_platform : p_platform p = "k8s" }.
(** Terms whose resources the API server takes. *)
Definition strictly_inside (e n : net) : Prop := (forall x, covers e x -> covers n x) /\ exists x, covers n x /\ ~ covers e x.
Record k8_term_takes (w : way) (t : term) : Prop := {
  ka_name : ~ In "."%char (list_ascii_of_string (t_name t));
  ka_protocol : forall n, In n (t_protocol t) -> In n (map fst transport);
  ka_ports : forall r, In r (t_destination_port t) -> 1 <= fst r <= snd r /\ snd r <= 65535;
  ka_side : valid_list (fst (near_side w t)) /\ valid_list (snd (near_side w t)) /\
    forall n e, In n (fst (near_side w t)) -> In e (snd (near_side w t)) -> strictly_inside e n }.
