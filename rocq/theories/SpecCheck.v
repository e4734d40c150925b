(** What the address checker is asked to find. *)
From Verif Require Export ModelCheck SpecPolicy.
Local Open Scope string_scope.
Local Open Scope list_scope.
Local Open Scope Z_scope.

(** The query describes this one packet: single addresses, both ports, the protocol. *)
Definition asks_for (q : query) (p : packet) : Prop :=
  (exists n, q_src q = Some n /\ valid n /\ forall x, covers n x <-> x = p_src p) /\
  (exists n, q_dst q = Some n /\ valid n /\ forall x, covers n x <-> x = p_dst p) /\
  q_sport q = Some (p_sport p) /\ q_dport q = Some (p_dport p) /\
  q_proto q = p_proto p /\ p_proto p <> "any".

(** A packet is among those asked about: 'any' leaves a part open. *)
Definition among (q : query) (p : packet) : Prop :=
  (forall n, q_src q = Some n -> covers n (p_src p)) /\
  (forall n, q_dst q = Some n -> covers n (p_dst p)) /\
  (forall s, q_sport q = Some s -> p_sport p = s) /\
  (forall s, q_dport q = Some s -> p_dport p = s) /\
  (q_proto q <> "any" -> p_proto p = q_proto q).

(** A condition whose truth the checker leaves open ("possible"). *)
Definition open_condition (t : term) : Prop :=
  In "first-fragment" (t_option t) \/ In "established" (t_option t) \/
  (In "tcp-established" (t_option t) /\ In "tcp" (t_protocol t)) \/
  (exists s, s <> "" /\ t_fragment_offset t = Some s) \/
  (exists s, s <> "" /\ t_packet_length t = Some s).

(** A term whose only conditions are those the checker looks at. *)
Record checkable (t : term) : Prop := {
  ck_valid : term_valid t;
  ck_address : t_address t = [] /\ t_address_exclude t = [] /\ t_port t = [];
  ck_exclude : t_source_address_exclude t = [] /\ t_destination_address_exclude t = [];
  ck_option : forall o, In o (t_option t) -> In o ["first-fragment"; "established"; "tcp-established"] /\
                        (o = "tcp-established" -> In "tcp" (t_protocol t));
  ck_prefix : t_source_prefix t = [] /\ t_source_prefix_except t = [] /\ t_destination_prefix t = [] /\
              t_destination_prefix_except t = [] /\ t_source_tag t = [] /\ t_destination_tag t = [];
  ck_class : t_precedence t = [] /\ t_forwarding_class t = [] /\ t_forwarding_class_except t = [];
  ck_numbers : t_hop_limit t = None /\ t_ttl t = None;
  ck_icmp : t_icmp_type t = [] /\ t_icmp_code t = [];
  ck_place : t_platform t = [] /\ t_platform_exclude t = [] /\ t_source_zone t = [] /\ t_destination_zone t = [];
  ck_link : t_ether_type t = [] /\ t_traffic_type t = [] /\ t_dscp_match t = [] /\ t_dscp_except t = [] /\
            t_source_interface t = None /\ t_destination_interface t = None /\ t_restrict_address_family t = None }.

(** First match decides: the term matches, acts, and every earlier term that matches only
    passes on. *)
Definition decides (ts : list term) (p : packet) (t : term) : Prop :=
  exists u v, ts = u ++ t :: v /\ term_matches t p /\ ~ In "next" (t_action t) /\
    forall e, In e u -> term_matches e p -> In "next" (t_action e).

(** A single address, or any. *)
Definition single_or_any (o : option net) : Prop :=
  match o with None => True | Some n => valid n /\ exists x, forall y, covers n y <-> y = x end.

(** The text is an integer: decimal digits with an optional sign. *)
Definition integer_text (s : string) (n : Z) : Prop :=
  numeral_value s = Some n \/
  (exists r, s = String "+" r /\ numeral_value r = Some n) \/
  (exists r m, s = String "-" r /\ numeral_value r = Some m /\ n = - m).
