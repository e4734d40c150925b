(** How the conditions of Junos Evo IPv6 filters are to be written: the table of doc/generators/juniperevo.md
    ("IPv6 Protocol Match"). *)
From Verif Require Export ModelEvo SpecJuniper.
Local Open Scope string_scope.
Local Open Scope list_scope.
Local Open Scope Z_scope.

(** The headers of the table that are not payload: hop-by-hop options, fragments, routing. *)
Definition extension (q : string) : Prop := In q ["hopopt"; "fragment"; "ipv6-route"].
(** Filters for packets that come in on physical interfaces, which is the default; [opts] are the words after
    the name of the filter. *)
Definition from_wire (opts : list string) : Prop := In "ingress" opts /\ (In "physical" opts \/ ~ In "loopback" opts).
(** The name of an extension header. *)
Definition header_name (q : string) : string :=
  if String.eqb q "hopopt" then "hop-by-hop" else if String.eqb q "ipv6-route" then "routing" else q.
(** A word for a payload: the name or the number of the protocol. *)
Definition payload_word (q w : string) : Prop := w = q \/ (q = "icmpv6" /\ w = "icmp6") \/ exists n, In (q, n) proto_map /\ w = dec n.
(** The line of the table: keyword and word for a protocol. *)
Definition documented (opts : list string) (key q w : string) : Prop :=
  (extension q /\ from_wire opts /\ key = "next-header" /\ w = header_name q) \/
  (extension q /\ ~ from_wire opts /\ key = "payload-protocol" /\ exists n, In (q, n) proto_map /\ w = dec n) \/
  (~ extension q /\ key = "payload-protocol" /\ payload_word q w).
(** The statements of a condition: none without protocols, otherwise one, each protocol written as documented. *)
Definition condition (opts : list string) (suffix : string) (qs : list string) (l : list stmt) : Prop :=
  match qs with
  | [] => l = []
  | _ => exists key ws, l = [Leaf (append key suffix :: ws)] /\ Forall2 (documented opts key) qs (values ws)
  end.
(** The lists of protocols: known, each once; for packets from the wire either extension headers or payload. *)
Record evo_list_ok (opts qs : list string) : Prop := {
  ev_known : forall q, In q qs -> In q (map fst proto_map);
  ev_once : NoDup qs;
  ev_routing : ~ In "ipv6-route" qs;
  ev_alike : from_wire opts -> (forall q, In q qs -> extension q) \/ (forall q, In q qs -> ~ extension q)
}.
(** ICMP is not part of IPv6. *)
Definition of_ipv6 (qs : list string) : list string := filter (fun q => negb (String.eqb q "icmp")) qs.
