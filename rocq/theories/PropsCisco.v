(** Theorems C28, C29, C40 and C56: Cisco extended access lists (cisco.py, ciscoxr.py, cisconx.py). *)
From Coq Require Import Lia.
From Verif Require Import SpecCisco Samples BaseFacts PyStrFacts TextProofs CiscoProofs CiscoProofs2 CiscoTerm CiscoAcl CiscoEst PropsPolicy.
Local Open Scope string_scope.
Local Open Scope list_scope.
Local Open Scope Z_scope.

(** ** C56: addresses as text *)

(** The text of an address denotes the address, for both families. *)
Theorem C56_address_text : forall v a, 0 <= a < 2 ^ width v -> ip_value v (addr_text v a) = Some a.
Proof. exact addr_text_value. Qed.
Print Assumptions C56_address_text.

(** "address/length" denotes exactly the addresses of the network. *)
Theorem C56_prefix_text : forall n, valid n -> forall x, 0 <= x < 2 ^ width (nver n) ->
  (prefix_says (nver n) (prefixlen_text n) x <-> covers n (nver n, x)).
Proof. intros n V x H. exact (prefix_text_says n x V H). Qed.
Print Assumptions C56_prefix_text.

(** "address wildcard-mask" denotes exactly the addresses of the network. *)
Theorem C56_wildcard_text : forall n, valid n -> nver n = V4 -> forall x, 0 <= x < 2 ^ 32 ->
  (wildcard_says (addr_text V4 (naddr n)) (addr_text V4 (hostmask n)) x <-> covers n (V4, x)).
Proof. intros n V E x H. exact (wildcard_net n x E V H). Qed.
Print Assumptions C56_wildcard_text.

Example C56_example :
  valid (v4 10 1 0 0 16) /\ prefixlen_text (v4 10 1 0 0 16) = "10.1.0.0/16" /\
  addr_text V4 (hostmask (v4 10 1 0 0 16)) = "0.0.255.255" /\
  addr_text V6 (db8 * 2 ^ 96 + 256) = "2001:db8::100" /\ addr_text V6 0 = "::" /\
  addr_text V6 (2 ^ 127 + 2 ^ 64 + 1) = "8000:0:0:1::1".
Proof.
  assert (V : valid_list [v4 10 1 0 0 16]) by valid_tac. split; [exact (Forall_inv V)|vm_compute; repeat split; reflexivity].
Qed.

(** ** C28: the lines of a term match what the term matches *)

(** For terms within what an extended access list can express. Missing for the full claim:
    the terms of the four refutations below and conditions the generator does not support. *)
Theorem C28_term_lines_exact_partial : forall c t p lines a rest,
  cisco_term_ok c t -> cisco_packet c t p -> cisco_term c t = Ok lines -> t_action t = a :: rest ->
  ((exists line, In line lines /\ line_matches (c_ver c) (verdict a) line p) <-> term_matches t p) /\
  (forall line act, In line lines -> line_matches (c_ver c) act line p -> act = verdict a).
Proof. exact cisco_term_exact. Qed.
Print Assumptions C28_term_lines_exact_partial.

(** The outcome of the whole access list for a packet is the outcome of the policy. *)
Theorem C28_access_list_decides_as_policy_partial : forall c today terms lines p,
  Forall (fun t => in_force today t -> cisco_term_ok c t /\ t_restrict_address_family t <> Some "") terms ->
  cisco_traffic c p -> cisco_acl c today terms = Ok lines ->
  forall outcome, acl_decides (c_ver c) lines p outcome <-> terms_decide (applies_today today p) terms outcome.
Proof. exact cisco_acl_decides. Qed.
Print Assumptions C28_access_list_decides_as_policy_partial.

Definition ios : cisco_cfg := mkCisco "cisco" 4 true false true true.
Definition ios6 : cisco_cfg := mkCisco "cisco" 6 true false true true.
Definition xr : cisco_cfg := mkCisco "ciscoxr" 4 false false true true.
Definition xr6 : cisco_cfg := mkCisco "ciscoxr" 6 false false true true.

Definition web : term :=
  set_protocol ["tcp"; "udp"] (set_destination_port [(80, 80); (443, 444); (8000, 8080)]
    (set_source_address [v4 10 0 0 0 30] (set_source_address_exclude [v4 10 0 0 1 32]
      (set_destination_address [v4 192 168 0 0 16; v6 db8 32] (set_logging ["true"] (accept "web")))))).
Definition old : term := set_expiration (Some 100) (set_action ["deny"] (blank "old")).

Example C28_example :
  cisco_term_ok ios web /\ Forall (fun t => in_force 100 t -> cisco_term_ok ios t /\ t_restrict_address_family t <> Some "") [old; web] /\
  cisco_traffic ios (pkt (ten 0 0 2) (192 * 2 ^ 24 + 168 * 2 ^ 16 + 5) "tcp" 3000 444) /\
  cisco_acl ios 100 [old; web] = Ok
    [String newline ""; " remark web";
     " permit tcp host 10.0.0.0 192.168.0.0 0.0.255.255 eq 80 log"; " permit udp host 10.0.0.0 192.168.0.0 0.0.255.255 eq 80 log";
     " permit tcp host 10.0.0.0 192.168.0.0 0.0.255.255 eq 443 log"; " permit udp host 10.0.0.0 192.168.0.0 0.0.255.255 eq 443 log";
     " permit tcp host 10.0.0.0 192.168.0.0 0.0.255.255 eq 444 log"; " permit udp host 10.0.0.0 192.168.0.0 0.0.255.255 eq 444 log";
     " permit tcp host 10.0.0.0 192.168.0.0 0.0.255.255 range 8000 8080 log"; " permit udp host 10.0.0.0 192.168.0.0 0.0.255.255 range 8000 8080 log";
     " permit tcp 10.0.0.2 0.0.0.1 192.168.0.0 0.0.255.255 eq 80 log"; " permit udp 10.0.0.2 0.0.0.1 192.168.0.0 0.0.255.255 eq 80 log";
     " permit tcp 10.0.0.2 0.0.0.1 192.168.0.0 0.0.255.255 eq 443 log"; " permit udp 10.0.0.2 0.0.0.1 192.168.0.0 0.0.255.255 eq 443 log";
     " permit tcp 10.0.0.2 0.0.0.1 192.168.0.0 0.0.255.255 eq 444 log"; " permit udp 10.0.0.2 0.0.0.1 192.168.0.0 0.0.255.255 eq 444 log";
     " permit tcp 10.0.0.2 0.0.0.1 192.168.0.0 0.0.255.255 range 8000 8080 log"; " permit udp 10.0.0.2 0.0.0.1 192.168.0.0 0.0.255.255 range 8000 8080 log"].
Proof.
  assert (K : cisco_term_ok ios web).
  { constructor; cbn; auto.
    - unfold only_cisco_conditions; cbn; repeat split.
    - eexists; eexists; split; [reflexivity|cbn; auto].
    - split; [valid_tac|split; [valid_tac|discriminate]].
    - split; [valid_tac|split; [valid_tac|discriminate]].
    - intros q [<-|[<-|[]]]; (split; [auto 40|discriminate]).
    - discriminate.
    - split; [discriminate|intros _ [X|[X|[]]]; discriminate X].
    - intros r [<-|[<-|[<-|[]]]]; cbn; lia.
    - split; [intros n []|congruence].
    - intros o [].
    - intros d []. }
  split; [exact K|]. split.
  { constructor; [|constructor; [|constructor]].
    - intros H. specialize (H 100 eq_refl). lia.
    - intros _. split; [exact K|discriminate]. }
  split; [|vm_compute; reflexivity].
  unfold cisco_traffic, pkt; cbn. repeat split; try lia; try discriminate; tauto.
Qed.

(** An exclusion without an inclusion is dropped: the line matches the excluded source. *)
Theorem C28_exclusion_alone_refuted : exists t p lines,
  cisco_term ios t = Ok lines /\ cisco_packet ios t p /\
  (exists line, In line lines /\ line_matches V4 "permit" line p) /\ ~ term_matches t p.
Proof.
  exists (set_source_address_exclude [v4 10 0 0 0 8] (accept "t")), (pkt (ten 0 0 1) 0 "tcp" 1 2).
  eexists. split; [vm_compute; reflexivity|]. split.
  { constructor; cbn; auto; try (split; [reflexivity|lia]); try discriminate; tauto. }
  split.
  - exists " permit ip any any". split; [cbn; auto|]. vm_compute. auto 12.
  - intros ((_ & (_ & N) & _) & _). apply N. exists (v4 10 0 0 0 8). split; [left; reflexivity|].
    split; [reflexivity|vm_compute; split; [discriminate|reflexivity]].
Qed.
Print Assumptions C28_exclusion_alone_refuted.

(** The option is-fragment is dropped when the term names a protocol. *)
Theorem C28_fragment_option_refuted : exists t p lines,
  cisco_term ios t = Ok lines /\ cisco_packet ios t p /\
  (exists line, In line lines /\ line_matches V4 "permit" line p) /\ ~ term_matches t p.
Proof.
  exists (set_protocol ["udp"] (set_option ["is-fragment"] (accept "t"))), (pkt 1 2 "udp" 1 2).
  eexists. split; [vm_compute; reflexivity|]. split.
  { constructor; cbn; auto; try (split; [reflexivity|lia]); try discriminate; tauto. }
  split.
  - exists " permit udp any any". split; [cbn; auto|]. vm_compute. auto 12.
  - intros (_ & _ & _ & _ & (_ & O & _) & _). exact (O "is-fragment" (or_introl eq_refl)).
Qed.
Print Assumptions C28_fragment_option_refuted.

(** Where names are printed, the protocol ipv6 (number 41) becomes the word for all traffic. *)
Theorem C28_protocol_ipv6_refuted : exists t p lines,
  cisco_term xr6 t = Ok lines /\ cisco_packet xr6 t p /\
  (exists line, In line lines /\ line_matches V6 "permit" line p) /\ ~ term_matches t p.
Proof.
  exists (set_protocol ["ipv6"] (accept "t")).
  exists (mkPacket (V6, 1) (V6, 2) "tcp" 1 2 "" 0 (fun _ => False) (fun _ => False) (fun _ => False) (fun _ => False)
            (fun _ => False) "" "" 0 0 0 64 "" "" "" "" "" "" "" "inet6" "ciscoxr").
  eexists. split; [vm_compute; reflexivity|]. split.
  { constructor; cbn; auto; try (split; [reflexivity|lia]); try discriminate; tauto. }
  split.
  - exists " permit ipv6 any any". split; [cbn; auto|]. vm_compute. auto 12.
  - intros (_ & (B & _) & _). destruct B as [B|(q & [<-|[]] & B)]; discriminate B.
Qed.
Print Assumptions C28_protocol_ipv6_refuted.

(** A term that lists the other family's ICMP beside other protocols is left out. *)
Theorem C28_other_icmp_refuted : exists t p,
  cisco_term ios6 t = Ok [] /\ cisco_packet ios6 t p /\ term_matches t p.
Proof.
  exists (set_protocol ["icmp"; "tcp"] (accept "t")).
  exists (mkPacket (V6, 1) (V6, 2) "tcp" 1 2 "" 0 (fun _ => False) (fun _ => False) (fun _ => False) (fun _ => False)
            (fun _ => False) "" "" 0 0 0 64 "" "" "" "" "" "" "" "inet6" "cisco").
  split; [vm_compute; reflexivity|]. split.
  { constructor; cbn; auto; try (split; [reflexivity|lia]); try discriminate; tauto. }
  assert (E : forall x : ipaddr, ~ covered [] x) by (intros x (n & [] & _)).
  unfold term_matches, addresses_match, either_matches, side_matches, protocols_match, all_ports_match, ports_match,
    prefixes_match, options_match, numbers_match, icmp_match, place_matches, link_matches, any_or, none_of, opt_eq, text_range.
  cbn. repeat split; auto; try (intros ? []).
  right. exists "tcp". auto.
Qed.
Print Assumptions C28_other_icmp_refuted.

(** With the option established, a term for TCP and UDP holds the TCP packets to the option
    and the UDP packets to the other conditions only. *)
Theorem C28_established_tcp_udp_partial : forall c t p lines a rest,
  t_protocol t = ["tcp"; "udp"] \/ t_protocol t = ["udp"; "tcp"] ->
  In "established" (t_option t) \/ In "tcp-established" (t_option t) -> t_icmp_type t = [] ->
  cisco_term_ok c (set_protocol ["tcp"] t) -> cisco_packet c t p -> cisco_term c t = Ok lines -> t_action t = a :: rest ->
  ((exists line, In line lines /\ line_matches (c_ver c) (verdict a) line p) <->
   term_matches (set_protocol ["tcp"] t) p \/ term_matches (set_protocol ["udp"] (set_option [] t)) p).
Proof. exact cisco_established_exact. Qed.
Print Assumptions C28_established_tcp_udp_partial.
Definition replies : term :=
  set_protocol ["tcp"; "udp"] (set_option ["established"] (set_source_address [v4 10 0 0 0 8] (accept "replies"))).
Example C28_established_example :
  cisco_term_ok ios (set_protocol ["tcp"] replies) /\
  cisco_term ios replies = Ok [String newline ""; " remark replies"; " permit tcp 10.0.0.0 0.255.255.255 any established";
                               " permit udp 10.0.0.0 0.255.255.255 any"] /\
  cisco_packet ios replies (pkt (ten 0 0 2) 5 "udp" 53 2000).
Proof.
  split; [|split; [vm_compute; reflexivity|constructor; cbn; auto; try (split; [reflexivity|lia]); try discriminate; tauto]].
  constructor; cbn; auto.
  - unfold only_cisco_conditions; cbn; repeat split.
  - eexists; eexists; split; [reflexivity|cbn; auto].
  - split; [valid_tac|split; [valid_tac|discriminate]].
  - split; [valid_tac|split; [valid_tac|auto]].
  - intros q [<-|[]]; (split; [auto 40|discriminate]).
  - discriminate.
  - split; [discriminate|intros _ [X|[]]; discriminate X].
  - intros r [].
  - split; [intros n []|congruence].
  - intros o [<-|[]]. left. split; [auto|]. split; [discriminate|]. intros q [<-|[]]. reflexivity.
  - intros d [].
Qed.

(** ** C29: port normalisation *)

Theorem C29_ports_unchanged : forall l x, in_ports (fix_consecutive_ports l) x <-> in_ports l x.
Proof. exact fix_consecutive_in. Qed.
Print Assumptions C29_ports_unchanged.
(** No range of exactly two ports is left. *)
Theorem C29_no_two_port_range : forall l r, In r (fix_consecutive_ports l) -> snd r <> fst r + 1.
Proof. exact fix_consecutive_no_pair. Qed.
Print Assumptions C29_no_two_port_range.
Example C29_example : fix_consecutive_ports [(80, 80); (443, 444); (8000, 8080)] = [(80, 80); (443, 443); (444, 444); (8000, 8080)].
Proof. reflexivity. Qed.

(** ** C40: expired terms *)

(** Taking the expired terms out of a policy leaves the access list as it is. *)
Theorem C40_cisco_expired_not_rendered : forall c today terms lines, cisco_acl c today terms = Ok lines ->
  cisco_acl c today (filter (valid_on today) terms) = Ok lines.
Proof. intros. rewrite filter_valid. apply cisco_acl_expired. assumption. Qed.
Print Assumptions C40_cisco_expired_not_rendered.
Example C40_cisco_example : expired 100 old = true /\ expired 99 old = false /\
  cisco_acl ios 100 [old] = Ok [] /\ cisco_acl ios 99 [old] = Ok [String newline ""; " remark old"; " deny ip any any"].
Proof. vm_compute. auto. Qed.
